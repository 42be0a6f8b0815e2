(** ESP transport mode: security associations, encapsulation, decapsulation and
    the places where the stack calls them.  Source: /repo/src/wolfesp.c:88-475
    (SA table), 477-531 (block and IV lengths), 644-710 (HMAC), 765-1262
    (ciphers), 1269-1295 (HMAC check), 1405-1653 (esp_transport_unwrap),
    1678-1909 (esp_transport_wrap), 1923-1960 (esp_send); wolfesp.h:1-100;
    wolfip.c:10368-10411 (reception), 4541-4560 and the other callers of
    esp_send.

    A datagram is the list of its bytes from ver_ihl on.  The C code moves bytes
    around inside one buffer; the model builds the resulting bytes by
    concatenation and returns [None] (undefined behaviour) when the C code would
    write past the buffer.  The wolfCrypt primitives are the fields of a record;
    what each call passes (key, nonce, plaintext, associated data, ICV length)
    is modelled, what it computes is not.  A failing primitive is [None].
    The state persistence callback's calls are not recorded here (EspReplay.v). *)
From Verif Require Import Base Checksum Arp Forward EspReplay.

(** wolfesp.h:32-54 *)
Inductive enc := ENone | ECbcAes | ECbcDes3 | EGcm4106 | EGcm4543.
Inductive auth := ANone | AMd5 | ASha1 | ASha256 | AGcm4106 | AGcm4543.

(** wolfesp.h:79-96 struct wolfIP_esp_sa.  Keys are the configured bytes (the C
    struct has an array and a length); addresses are in host order, 0 = any. *)
Record sa := mkSa { sa_spi : list Z; sa_src : Z; sa_dst : Z; sa_rep : replay; sa_enc : enc; sa_ekey : list Z;
                    sa_auth : auth; sa_akey : list Z; sa_icv : Z; sa_preiv : list Z }.
Definition sa_free : sa := mkSa [0; 0; 0; 0] 0 0 (mkReplay 0 0 0) ENone [] ANone [] 0 (repeat 0 8).
Definition with_rep (s : sa) (r : replay) : sa :=
  mkSa (sa_spi s) (sa_src s) (sa_dst s) r (sa_enc s) (sa_ekey s) (sa_auth s) (sa_akey s) (sa_icv s) (sa_preiv s).

(** The wolfCrypt calls. *)
Record crypto := mkCrypto {
  hmac : auth -> list Z -> list Z -> option (list Z);               (* type, key, data: the digest *)
  cbc_enc : enc -> list Z -> list Z -> list Z -> option (list Z);   (* cipher, key, iv, plaintext *)
  cbc_dec : enc -> list Z -> list Z -> list Z -> option (list Z);
  gcm_enc : list Z -> list Z -> list Z -> list Z -> Z -> option (list Z * list Z);  (* key, nonce, plaintext, aad, icv length *)
  gcm_dec : list Z -> list Z -> list Z -> list Z -> list Z -> option (list Z);      (* key, nonce, ciphertext, aad, icv *)
  gmac : list Z -> list Z -> list Z -> Z -> option (list Z);        (* key, nonce, aad, icv length *)
  gmac_ok : list Z -> list Z -> list Z -> list Z -> bool            (* key, nonce, aad, icv *)
}.

(** wolfesp.c:477-502, 504-531 *)
Definition block_len (e : enc) : Z := match e with ECbcDes3 => 8 | ECbcAes => 16 | _ => 0 end.
Definition iv_len (e : enc) : Z := match e with ECbcDes3 => 8 | ECbcAes => 16 | EGcm4106 | EGcm4543 => 8 | ENone => 0 end.

Fixpoint leqb (a b : list Z) : bool :=
  match a, b with
  | [], [] => true
  | x :: a, y :: b => (x =? y) && leqb a b
  | _, _ => false
  end.
(** esp_spi_valid, wolfesp.c:174-196 *)
Definition spi_valid (spi : list Z) : bool := negb (leqb spi [0; 0; 0; 0]).

(** The address part of both lookups, wolfesp.c:1463-1473, 1720-1730. *)
Definition addr_match (s : sa) (src dst : Z) : bool :=
  ((sa_dst s =? 0) || (dst =? sa_dst s)) && ((sa_src s =? 0) || (src =? sa_src s)).
(** wolfesp.c:1452-1479 *)
Definition in_match (spi : list Z) (src dst : Z) (s : sa) : bool :=
  spi_valid (sa_spi s) && leqb spi (sa_spi s) && addr_match s src dst.
(** wolfesp.c:1714-1738 *)
Definition out_match (src dst : Z) (s : sa) : bool := spi_valid (sa_spi s) && addr_match s src dst.

(** The lookup loop: run [f] on the first matching SA of the table. *)
Fixpoint with_first {R} (p : sa -> bool) (f : sa -> option (sa * R)) (l : list sa) : option (list sa * option R) :=
  match l with
  | [] => Some ([], None)
  | s :: l =>
      if p s then do (s', r) <- f s; Some (s' :: l, Some r)
      else do (l', r) <- with_first p f l; Some (s :: l', r)
  end.

(** esp_rfc4106_salt, esp_rfc4106_gen_iv, the nonce and the AES key:
    wolfesp.c:984-1015, 1046-1050. *)
Definition cut (l : list Z) (n : Z) : list Z * list Z := (firstn (Z.to_nat n) l, skipn (Z.to_nat n) l).
Definition aes_key (s : sa) : list Z := fst (cut (sa_ekey s) (zlen (sa_ekey s) - 4)).
Definition salt (s : sa) : list Z := snd (cut (sa_ekey s) (zlen (sa_ekey s) - 4)).
Fixpoint xor_bytes (a b : list Z) : list Z :=
  match a, b with x :: a, y :: b => Z.lxor x y :: xor_bytes a b | _, _ => [] end.
Definition gen_iv (s : sa) (q : Z) : list Z := firstn 4 (sa_preiv s) ++ xor_bytes (skipn 4 (sa_preiv s)) (be32 q).

Definition is_hmac (a : auth) : bool := match a with AMd5 | ASha1 | ASha256 => true | _ => false end.
Definition is_aead (a : auth) : bool := match a with AGcm4106 | AGcm4543 => true | _ => false end.
(** esp_calc_icv_hmac into the zeroed 32-byte hash, first icv_len bytes used:
    wolfesp.c:644-710, 1277-1294, 1859-1869. *)
Definition hmac_icv (c : crypto) (s : sa) (data : list Z) : option (list Z) :=
  do h <- hmac c (sa_auth s) (sa_akey s) data; Some (firstn (Z.to_nat (sa_icv s)) (h ++ repeat 0 32)).

(** The encryption and ICV part of esp_transport_wrap, wolfesp.c:1822-1887, with
    the cipher functions 814-867, 924-976, 1085-1152, 1203-1262: [q] the sequence
    number, [body] = payload, padding, pad length, next header.  [rng] is what
    wc_RNG_GenerateBlock produces.  The ICV bytes of an SA whose enc is not an
    AEAD but whose auth is (no API call makes one) are taken to be zero. *)
Definition seal (c : crypto) (rng : option (list Z)) (s : sa) (q : Z) (body : list Z) : option (list Z) :=
  let hdr := sa_spi s ++ be32 q in
  do (data, tag) <-
    match sa_enc s with
    | ENone => Some (hdr ++ body, repeat 0 (Z.to_nat (sa_icv s)))
    | ECbcAes | ECbcDes3 =>
        if (match sa_enc s with ECbcDes3 => true | _ => false end) && negb (zlen (sa_ekey s) =? 24) then None else
        do r <- rng;
        let iv := firstn (Z.to_nat (iv_len (sa_enc s))) r in
        do ct <- cbc_enc c (sa_enc s) (sa_ekey s) iv body;
        Some (hdr ++ iv ++ ct, repeat 0 (Z.to_nat (sa_icv s)))
    | EGcm4106 =>
        let iv := gen_iv s q in
        do (ct, tag) <- gcm_enc c (aes_key s) (salt s ++ iv) body hdr (sa_icv s);
        Some (hdr ++ iv ++ ct, tag)
    | EGcm4543 =>
        let iv := gen_iv s q in
        do tag <- gmac c (aes_key s) (salt s ++ iv) (hdr ++ iv ++ body) (sa_icv s);
        Some (hdr ++ iv ++ body, tag)
    end;
  if sa_icv s =? 0 then Some data else
  if is_hmac (sa_auth s) then do i <- hmac_icv c s data; Some (data ++ i) else
  if is_aead (sa_auth s) then Some (data ++ tag) else None.

(** Padding: wolfesp.c:1768-1804 (ESP_ICV_ALIGNMENT is 4). *)
Definition pad_for (e : enc) (n : Z) : Z :=
  if negb (block_len e =? 0)
  then let l := iv_len e + n + 2 in if l mod block_len e =? 0 then 0 else block_len e - l mod block_len e
  else let l := 8 + iv_len e + n + 2 in if l mod 4 =? 0 then 0 else 4 - l mod 4.
Definition padding (n : Z) : list Z := map (fun i => Z.of_nat i + 1) (seq 0 (Z.to_nat n)).

Inductive wres := WSend (ip : list Z) | WErr | WPlain.
(** LINK_MTU + 60 bytes of frame, 14 of them the Ethernet header: wolfesp.c:1936. *)
Definition esp_room : Z := 1536 + 60 - 14.

(** esp_transport_wrap once the SA is found, wolfesp.c:1745-1904. *)
Definition wrap_sa (c : crypto) (rng : option (list Z)) (ip : list Z) (s : sa) : option (sa * wres) :=
  let hl := ihl_bytes (zget ip 0) in
  let orig := skipn (Z.to_nat hl) ip in
  if esp_room <? zlen ip + 8 + iv_len (sa_enc s) then None else
  let '(r, o) := esp_next_oseq (sa_rep s) in
  let s := with_rep s r in
  match o with
  | None => Some (s, WErr)
  | Some q =>
      let pad := pad_for (sa_enc s) (zlen orig) in
      if esp_room <? zlen ip + 8 + iv_len (sa_enc s) + pad + 2 + sa_icv s then None else
      match seal c rng s q (orig ++ padding pad ++ [pad; zget ip 9]) with
      | None => Some (s, WErr)
      | Some esp =>
          let out := firstn (Z.to_nat hl) ip ++ esp in
          do out <- mwrite out 2 (be16 (u16 (zlen out)));
          do out <- mwrite out 9 [50];
          do out <- iphdr_set_checksum out;
          Some (s, WSend out)
      end
  end.
(** esp_transport_wrap, wolfesp.c:1678-1909; [ip] is the whole datagram (ip_len bytes). *)
Definition esp_wrap (c : crypto) (rng : option (list Z)) (outs : list sa) (ip : list Z) : option (list sa * wres) :=
  if esp_room <? zlen ip then None else
  let hl := ihl_bytes (zget ip 0) in
  if (hl <? 20) || (zlen ip <? hl) then Some (outs, WErr) else
  do (outs, r) <- with_first (out_match (rd32 ip 12) (rd32 ip 16)) (wrap_sa c rng ip) outs;
  Some (outs, match r with None => WPlain | Some r => r end).

(** esp_send and its callers (wolfip.c:2353, 2441, 3592, 3777, 4259, 4541, 4748,
    8300, 11385, 11535): [Some f] is the frame given to the driver.  rc 1 sends
    the packet as it is, rc -1 sends nothing. *)
Definition esp_out (c : crypto) (rng : option (list Z)) (noneth : bool) (outs : list sa) (eth ip : list Z)
  : option (list sa * option (list Z)) :=
  if noneth then Some (outs, Some (eth ++ ip)) else
  do (outs, r) <- esp_wrap c rng outs ip;
  Some (outs, match r with WSend w => Some (eth ++ w) | WErr => None | WPlain => Some (eth ++ ip) end).

(** ICV check and decryption, wolfesp.c:1509-1581 with 765-812, 870-922,
    1018-1083, 1164-1201, 1269-1295.  [esp]: from SPI to the end of the ICV. *)
Definition open_ (c : crypto) (s : sa) (esp : list Z) : option (list Z) :=
  let '(data, icv) := cut esp (zlen esp - sa_icv s) in
  let iv := slice data 8 (Z.to_nat (iv_len (sa_enc s))) in
  let ct := skipn (Z.to_nat (8 + iv_len (sa_enc s))) data in
  do ok <- (if sa_icv s =? 0 then Some true
            else if is_hmac (sa_auth s) then do i <- hmac_icv c s data; Some (leqb icv i)
            else Some (is_aead (sa_auth s)));
  if negb ok then None else
  match sa_enc s with
  | ENone => Some ct
  | ECbcAes => cbc_dec c ECbcAes (sa_ekey s) iv ct
  | ECbcDes3 => if negb (zlen (sa_ekey s) =? 24) then None else cbc_dec c ECbcDes3 (sa_ekey s) iv ct
  | EGcm4106 => gcm_dec c (aes_key s) (salt s ++ iv) ct (firstn 8 data) icv
  | EGcm4543 => if gmac_ok c (aes_key s) (salt s ++ iv) data icv then Some ct else None
  end.

Inductive ures := UOk (ip : list Z) | UDrop.

(** The trailer, wolfesp.c:1592-1628: the payload and the next header, or drop. *)
Definition trailer (pt : list Z) : option (list Z * Z) :=
  let n := zlen pt in
  let pad := zget pt (n - 2) in
  if n <? pad + 2 then None else
  if leqb (slice pt (Z.to_nat (n - 2 - pad)) (Z.to_nat pad)) (padding pad)
  then Some (firstn (Z.to_nat (n - 2 - pad)) pt, zget pt (n - 1)) else None.

(** esp_transport_unwrap once the SA is found, wolfesp.c:1490-1652. *)
Definition unwrap_sa (c : crypto) (ip esp : list Z) (s : sa) : option (sa * ures) :=
  let seq := rd32 esp 4 in
  do ok <- (if sa_icv s =? 0 then Some true else esp_replay_check (sa_rep s) seq);
  if negb ok then Some (s, UDrop) else
  if zlen esp <? 8 + iv_len (sa_enc s) + 2 + sa_icv s then Some (s, UDrop) else
  match open_ c s esp with
  | None => Some (s, UDrop)
  | Some pt =>
      do s <- (if sa_icv s =? 0 then Some s else do r <- esp_replay_commit (sa_rep s) seq; Some (with_rep s r));
      match trailer pt with
      | None => Some (s, UDrop)
      | Some (pl, nh) =>
          let out := firstn 20 ip ++ pl in
          do out <- mwrite out 2 (be16 (u16 (zlen out)));
          do out <- mwrite out 9 [nh];
          do out <- iphdr_set_checksum out;
          Some (s, UOk out)
      end
  end.
(** esp_transport_unwrap, wolfesp.c:1405-1653.  [ip]: the frame from ver_ihl to
    frame_len; the result is the datagram cut at the new frame_len. *)
Definition esp_unwrap (c : crypto) (ins : list sa) (ip : list Z) : option (list sa * ures) :=
  if zlen ip <? 4 then None else
  let total := rd16 ip 2 in
  if (total <? 20) || (zlen ip <? total) then Some (ins, UDrop) else
  if total - 20 <? 8 then Some (ins, UDrop) else
  do esp <- mread ip 20 (total - 20);
  let spi := firstn 4 esp in
  if negb (spi_valid spi) then Some (ins, UDrop) else
  do (ins, r) <- with_first (in_match spi (rd32 ip 12) (rd32 ip 16)) (unwrap_sa c ip esp) ins;
  Some (ins, match r with None => UDrop | Some r => r end).

(** wolfip.c:10368-10411: what ip_recv does with an accepted frame for this host:
    options removed, ESP decapsulated; the frame given to the transport
    protocols, if any. *)
Definition esp_in (c : crypto) (noneth : bool) (ins : list sa) (f : list Z) : option (list sa * option (list Z)) :=
  if (20 <? hlen_of f) && (1536 <? zlen f) then Some (ins, None) else
  do g <- strip_options f;
  if negb (zget g 23 =? 50) then Some (ins, Some g) else
  if noneth then Some (ins, None) else
  do (ins, r) <- esp_unwrap c ins (skipn 14 g);
  Some (ins, match r with UOk ip => Some (firstn 14 g ++ ip) | UDrop => None end).

(** ** The SA table API *)
(** esp_sa_get(in, NULL): the first empty slot, wolfesp.c:134-159. *)
Fixpoint put_free (s : sa) (l : list sa) : option (list sa) :=
  match l with
  | [] => None
  | x :: l => if negb (spi_valid (sa_spi x)) then Some (s :: l) else do l <- put_free s l; Some (x :: l)
  end.
Fixpoint has_free (l : list sa) : bool :=
  match l with [] => false | x :: l => negb (spi_valid (sa_spi x)) || has_free l end.

(** esp_sa_valid_hmac_auth, wolfesp.c:272-318. [key = None]: a null pointer. *)
Definition hmac_auth_ok (a : auth) (key : option (list Z)) (icv : Z) : bool :=
  match key with
  | None => (match a with ANone => true | _ => false end) && (icv =? 0)
  | Some k =>
      match a with
      | AMd5 | ASha1 => icv =? 12
      | ASha256 => (icv =? 12) || (icv =? 16)
      | _ => false
      end && (zlen k <=? 32)
  end.

(** A request to create an SA: wolfIP_esp_sa_new_gcm (198-270), _new_hmac
    (320-363), _new_cbc_hmac (365-421), _new_des3_hmac (424-475).  A DES3 key is
    the 24 bytes the function copies.  A non-null key with length 0 is [Some []]. *)
Inductive newsa :=
| NGcm (e : enc) (key : list Z) (rng : option (list Z))
| NHmac (a : auth) (akey : list Z) (icv : Z)
| NCbc (key : list Z) (a : auth) (akey : option (list Z)) (icv : Z)
| NDes3 (key : list Z) (a : auth) (akey : option (list Z)) (icv : Z).
Definition key_of (o : option (list Z)) : list Z := match o with Some k => k | None => [] end.
(** The parameter checks and the fields set, before the state is restored. *)
Definition make_sa (spi : list Z) (src dst : Z) (n : newsa) : option sa :=
  match n with
  | NGcm e k rng =>
      if negb ((zlen k =? 20) || (zlen k =? 28) || (zlen k =? 36)) then None else
      match e with
      | EGcm4106 | EGcm4543 =>
          let a := match e with EGcm4106 => AGcm4106 | _ => AGcm4543 end in
          match rng with
          | Some iv => Some (mkSa spi src dst esp_replay_init e k a [] 16 (firstn 8 iv))
          | None => None
          end
      | _ => None
      end
  | NHmac a k icv =>
      if hmac_auth_ok a (Some k) icv then Some (mkSa spi src dst esp_replay_init ENone [] a k icv (repeat 0 8)) else None
  | NCbc k a ak icv =>
      if negb ((zlen k =? 16) || (zlen k =? 24) || (zlen k =? 32)) then None else
      if hmac_auth_ok a ak icv then Some (mkSa spi src dst esp_replay_init ECbcAes k a (key_of ak) icv (repeat 0 8)) else None
  | NDes3 k a ak icv =>
      if hmac_auth_ok a ak icv then Some (mkSa spi src dst esp_replay_init ECbcDes3 (firstn 24 k) a (key_of ak) icv (repeat 0 8)) else None
  end.
(** [cb]: what the state read callback returns.  When the random generator fails
    the slot is zeroed (it stays free) and -1 returned. *)
Definition sa_new (l : list sa) (spi : list Z) (src dst : Z) (n : newsa) (cb : option saved) : list sa * bool :=
  if negb (spi_valid spi) then (l, false) else
  if negb (has_free l) then (l, false) else
  match make_sa spi src dst n with
  | None => (l, false)
  | Some s => match put_free (with_rep s (esp_state_restore (sa_rep s) cb)) l with
              | Some l => (l, true)
              | None => (l, false)
              end
  end.
(** wolfIP_esp_sa_del (wolfesp.c:161-170), wolfIP_esp_sa_del_all (114-129). *)
Fixpoint sa_del (l : list sa) (spi : list Z) : list sa :=
  match l with [] => [] | x :: l => if leqb (sa_spi x) spi then sa_free :: l else x :: sa_del l spi end.
Definition sa_del_all (l : list sa) : list sa := map (fun _ => sa_free) l.
