(** Model of the Internet checksum code.  Source: /repo/src/wolfip.c:1877-1892
    (ip_checksum_buf), 4349-4374 (transport_checksum), 4376-4379
    (transport_verify_checksum), 4381-4401 (icmp_checksum), 4403-4426
    (iphdr_set_checksum), 4428-4450 (iphdr_verify_checksum), 4794-4814 (the
    filling of the transport checksum field in ip_output_add_header). *)
From Verif Require Import Base.

(** The word loop: sum += big-endian 16-bit word, plus the odd trailing byte as
    the high half of a zero-padded word.  [sum] is uint32_t.  memcpy of the
    word followed by ee16 is the big-endian value on either endianness.
    wolfip.c:1882-1889, 4360-4369, 4387-4395. *)
Fixpoint sum_words (b : list Z) (sum : Z) : Z :=
  match b with
  | [] => sum
  | [x] => u32 (sum + x * 256)
  | x :: y :: b => sum_words b (u32 (sum + (x * 256 + y)))
  end.

(** while (sum >> 16) sum = (sum & 0xffff) + (sum >> 16), wolfip.c:1889-1890 and
    the four copies.  [fuel] bounds the iterations; [None] would mean that the
    loop has not exited ([fold_exits] proves three tests are always enough). *)
Fixpoint fold_loop (fuel : nat) (sum : Z) : option Z :=
  if Z.shiftr sum 16 =? 0 then Some sum
  else match fuel with
       | O => None
       | S fuel => fold_loop fuel (u32 (Z.land sum 65535 + Z.shiftr sum 16))
       end.

(** (uint16_t)~sum *)
Definition not16 (x : Z) : Z := u16 (Z.lnot x).

(** ip_checksum_buf (wolfip.c:1877-1892); icmp_checksum (4381-4401) is the same
    function applied to the ICMP message. *)
Definition checksum (b : list Z) : option Z :=
  do s <- fold_loop 2 (sum_words b 0); Some (not16 s).

(** transport_checksum, wolfip.c:4349-4374: the 12 pseudo header bytes first. *)
Definition transport_checksum (ph data : list Z) : option Z :=
  do s <- fold_loop 2 (sum_words data (sum_words ph 0)); Some (not16 s).

(** The pseudo header bytes: src, dst, zero, proto, length (wolfip.c:765-772). *)
Definition be16 (v : Z) : list Z := [Z.shiftr v 8 mod 256; v mod 256].
Definition pseudo (src dst : list Z) (proto len : Z) : list Z := src ++ dst ++ [0; proto] ++ be16 len.

(** transport_verify_checksum, wolfip.c:4376-4379. *)
Definition transport_verify (ph data : list Z) : option bool :=
  do c <- transport_checksum ph data; Some (c =? 0).

(** Store a 16-bit big-endian value at [off] (put_be16 / ee16 store). *)
Definition put16 (b : list Z) (off v : Z) : option (list Z) := mwrite b off (be16 v).

(** icmp->csum = 0; icmp->csum = ee16(icmp_checksum(..)), wolfip.c:4811-4813, 8269-8270;
    IGMP 4523-4525. *)
Definition fill_checksum (b : list Z) (off : Z) : option (list Z) :=
  do b <- put16 b off 0; do c <- checksum b; put16 b off c.
(** TCP: wolfip.c:4799-4801, 3748-3754. *)
Definition fill_transport (ph b : list Z) (off : Z) : option (list Z) :=
  do b <- put16 b off 0; do c <- transport_checksum ph b; put16 b off c.
(** UDP: wolfip.c:4804-4809 (a computed zero is sent as 0xFFFF). *)
Definition fill_udp (ph b : list Z) (off : Z) : option (list Z) :=
  do b <- put16 b off 0; do c <- transport_checksum ph b; put16 b off (if c =? 0 then 65535 else c).

(** IHL of a header: ip->ver_ihl & 0x0f, times 4. *)
Definition ihl_bytes (v : Z) : Z := Z.land v 15 * 4.

(** iphdr_set_checksum, wolfip.c:4403-4426.  [ip] is the memory from ver_ihl on;
    reading past its end is [None]. *)
Definition iphdr_set_checksum (ip : list Z) : option (list Z) :=
  do v <- mread ip 0 1;
  let h := ihl_bytes (zget v 0) in
  let h := if h <? 20 then 20 else h in
  do ip <- put16 ip 10 0;
  do hdr <- mread ip 0 h;
  do s <- fold_loop 2 (sum_words hdr 0);
  put16 ip 10 (not16 s).

(** iphdr_verify_checksum, wolfip.c:4428-4450. *)
Definition iphdr_verify_checksum (ip : list Z) : option bool :=
  do v <- mread ip 0 1;
  let v := zget v 0 in
  if negb (Z.shiftr v 4 =? 4) then Some false else
  let h := ihl_bytes v in
  if h <? 20 then Some false else
  do hdr <- mread ip 0 h;
  do s <- fold_loop 2 (sum_words hdr 0);
  Some (u16 s =? 65535).
