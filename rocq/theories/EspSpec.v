(** What ESP transport mode must do, in the words of RFC 4303 and of the RFCs of
    the suites (2403, 2404, 4868 HMAC; 2451, 3602 CBC; 4106 GCM; 4543 GMAC). *)
From Verif Require Import Base Checksum Arp EspReplay Esp.

(** The primitives: decryption inverts encryption in place, verification accepts
    what was generated, tags have the length asked for, decrypted text is bytes. *)
Definition crypto_ok (c : crypto) : Prop :=
  (forall e k iv p ct, cbc_enc c e k iv p = Some ct -> cbc_dec c e k iv ct = Some p /\ zlen ct = zlen p) /\
  (forall k n p a l ct t, gcm_enc c k n p a l = Some (ct, t) -> gcm_dec c k n ct a t = Some p /\ zlen ct = zlen p /\ zlen t = l) /\
  (forall k n a l t, gmac c k n a l = Some t -> gmac_ok c k n a t = true /\ zlen t = l) /\
  (forall e k iv p ct, cbc_dec c e k iv ct = Some p -> zlen p = zlen ct /\ Forall byte p) /\
  (forall k n p a t ct, gcm_dec c k n ct a t = Some p -> zlen p = zlen ct /\ Forall byte p).
(** The random generator, when it works, gives the (up to 16) bytes asked for. *)
Definition rng_ok (r : option (list Z)) : Prop := match r with Some b => 16 <= zlen b | None => True end.

(** What every security association made by the API satisfies (see esp_table_ok). *)
Definition hmac_part (s : sa) : Prop := is_hmac (sa_auth s) = true /\ (sa_icv s = 12 \/ sa_icv s = 16).
Definition sa_ok (s : sa) : Prop :=
  zlen (sa_spi s) = 4 /\ sa_spi s <> [0; 0; 0; 0] /\ zlen (sa_preiv s) = 8 /\
  0 <= r_hi (sa_rep s) < 4294967296 /\ 0 <= r_oseq (sa_rep s) < 4294967296 /\
  match sa_enc s with
  | ENone => hmac_part s
  | ECbcAes => hmac_part s \/ (sa_auth s = ANone /\ sa_icv s = 0)
  | ECbcDes3 => zlen (sa_ekey s) = 24 /\ (hmac_part s \/ (sa_auth s = ANone /\ sa_icv s = 0))
  | EGcm4106 => sa_auth s = AGcm4106 /\ sa_icv s = 16 /\ In (zlen (sa_ekey s)) [20; 28; 36]
  | EGcm4543 => sa_auth s = AGcm4543 /\ sa_icv s = 16 /\ In (zlen (sa_ekey s)) [20; 28; 36]
  end.
Definition table_ok (l : list sa) : Prop := forall s, In s l -> s = sa_free \/ sa_ok s.

(** The two ends hold the same SPI, algorithms and keys. *)
Definition same_suite (a b : sa) : Prop :=
  sa_spi a = sa_spi b /\ sa_enc a = sa_enc b /\ sa_ekey a = sa_ekey b /\ sa_auth a = sa_auth b /\
  sa_akey a = sa_akey b /\ sa_icv a = sa_icv b.

(** An IPv4 datagram as the stack builds it: IHL at least 5 and inside the
    datagram, total length right, header checksum as the stack computes it. *)
Definition datagram (ip : list Z) : Prop :=
  20 <= ihl_bytes (zget ip 0) <= zlen ip /\ rd16 ip 2 = zlen ip /\ Forall byte ip /\ iphdr_set_checksum ip = Some ip.

(** Source and destination of a datagram. *)
Definition src_of (ip : list Z) : Z := rd32 ip 12.
Definition dst_of (ip : list Z) : Z := rd32 ip 16.

(** [s] speaks for these addresses: a zero address in the SA stands for any. *)
Definition covers (s : sa) (src dst : Z) : Prop :=
  sa_spi s <> [0; 0; 0; 0] /\ (sa_dst s = 0 \/ sa_dst s = dst) /\ (sa_src s = 0 \/ sa_src s = src).
(** In the table [l1 ++ s :: l2], [s] is the first association for these
    addresses ([sel]: and for this SPI). *)
Definition chosen (sel : sa -> Prop) (l1 : list sa) (s : sa) (src dst : Z) : Prop :=
  sel s /\ covers s src dst /\ forall x, In x l1 -> ~ (sel x /\ covers x src dst).
Definition any_spi (s : sa) : Prop := True.
Definition has_spi (spi : list Z) (s : sa) : Prop := sa_spi s = spi.

(** The ESP part of a received frame (without options): from the SPI to the end
    of the ICV, as delimited by the IP total length. *)
Definition esp_part (ip : list Z) : list Z := firstn (Z.to_nat (rd16 ip 2 - 20)) (skipn 20 ip).
(** RFC 4303 2: SPI, sequence number, then (IV and) payload, then ICV. *)
Definition pkt_spi (esp : list Z) : list Z := firstn 4 esp.
Definition pkt_seq (esp : list Z) : Z := rd32 esp 4.

(** The packet is authentic under [s], and [pt] is its plaintext (payload,
    padding, pad length, next header): the ICV is the suite's value over
    everything from the SPI to the next header, both inclusive. *)
Definition authentic (c : crypto) (s : sa) (esp pt : list Z) : Prop :=
  exists body icv,
    let iv := slice body 8 (Z.to_nat (iv_len (sa_enc s))) in
    let ct := skipn (Z.to_nat (8 + iv_len (sa_enc s))) body in
    esp = body ++ icv /\ zlen icv = sa_icv s /\ 8 + iv_len (sa_enc s) + 2 <= zlen body /\
    match sa_enc s with
    | EGcm4106 => gcm_dec c (aes_key s) (salt s ++ iv) ct (firstn 8 body) icv = Some pt
    | EGcm4543 => gmac_ok c (aes_key s) (salt s ++ iv) body icv = true /\ pt = ct
    | e =>
        (sa_icv s <> 0 -> exists h, hmac c (sa_auth s) (sa_akey s) body = Some h /\ icv = firstn (Z.to_nat (sa_icv s)) (h ++ repeat 0 32)) /\
        match e with
        | ENone => pt = ct
        | _ => cbc_dec c e (sa_ekey s) iv ct = Some pt
        end
    end.

(** RFC 4303 2.4-2.6: payload, padding 1,2,3,.., pad length, next header. *)
Definition unpadded (pt pl : list Z) (nh : Z) : Prop :=
  exists n, pt = pl ++ map (fun i => Z.of_nat i + 1) (seq 0 n) ++ [Z.of_nat n; nh].

(** The SA after a packet with number [q] was accepted: only the window moved
    (EspReplayProps.v says what the window then refuses). *)
Definition after (s : sa) (q : Z) : sa :=
  if sa_icv s =? 0 then s else match esp_replay_commit (sa_rep s) q with Some r => with_rep s r | None => s end.
(** The delivered frame [g]: [h] with its payload replaced by [pl], its protocol
    by [nh], its length adjusted and a valid header checksum. *)
Definition decapsulated (h g pl : list Z) (nh : Z) : Prop :=
  firstn 14 g = firstn 14 h /\ skipn 34 g = pl /\ zget g 23 = nh /\ rd16 g 16 = u16 (20 + zlen pl) /\
  (forall k, 14 <= k < 34 -> k <> 16 -> k <> 17 -> k <> 23 -> k <> 24 -> k <> 25 -> zget g k = zget h k).


(** ** Whole conversations *)
(** A host sends datagrams (each with what the random generator gives). *)
Fixpoint tx_all (c : crypto) (outs : list sa) (l : list (option (list Z) * list Z)) : option (list sa * list wres) :=
  match l with
  | [] => Some (outs, [])
  | (rng, ip) :: l => do (outs, r) <- esp_wrap c rng outs ip; do (outs, rs) <- tx_all c outs l; Some (outs, r :: rs)
  end.
(** A host receives frames; what its transport protocols are given. *)
Fixpoint rx_all (c : crypto) (ins : list sa) (l : list (list Z)) : option (list sa * list (option (list Z))) :=
  match l with
  | [] => Some (ins, [])
  | f :: l => do (ins, r) <- esp_in c false ins f; do (ins, rs) <- rx_all c ins l; Some (ins, r :: rs)
  end.
(** Frame [f] carries the [i]-th packet sent: Ethernet header, packet, L2 padding. *)
Definition carries (eth : list Z) (ws : list wres) (i : nat) (f : list Z) : Prop :=
  exists w slack, nth_error ws i = Some (WSend w) /\ f = eth ++ w ++ slack /\ zlen f <= 1536.
(** The sequence numbers (1, 2, ... in the order sent) of the packets delivered so far. *)
Fixpoint seen (is : list nat) (os : list (option (list Z))) : list Z :=
  match is, os with
  | i :: is, Some _ :: os => (Z.of_nat i + 1) :: seen is os
  | _ :: is, None :: os => seen is os
  | _, _ => []
  end.
