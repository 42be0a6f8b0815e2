(** EAPOL-Key, EAP and RSN IE codecs.
    Source: /repo/src/supplicant/eapol.c:18-118, eap.c:18-114, rsn_ie.c:18-74;
    constants from eapol.h:36-86, eap.h:34-50, rsn_ie.h:35-65.
    [None] is an access outside a buffer; pointers into the frame are represented by
    the bytes they designate (read here, so that an outside pointer is caught). *)
From Verif Require Import Base HttpUrl.

(** eapol.h eapol_rd16 / eapol_wr16 *)
Definition eapol_rd16 (f : list Z) (o : Z) : option Z := do a <- rd1 f o; do b <- rd1 f (o + 1); Some (256 * a + b).
Definition eapol_wr16 (m : list Z) (o v : Z) : option (list Z) := mwrite m o [u8 (v / 256); u8 v].

(** eapol.h struct eapol_key_view *)
Record kview := mkKv { kv_frame_len : Z; kv_body_len : Z; kv_info : Z; kv_key_len : Z; kv_replay : list Z;
                       kv_nonce : list Z; kv_mic : list Z; kv_data : list Z }.

(** eapol.c:18-66 eapol_key_parse: [Some None] is -1 *)
Definition eapol_key_parse (f : list Z) : option (option kview) :=
  let len := zlen f in
  if len <? 99 then Some None else
  do v <- rd1 f 0;
  if negb (v =? 2) && negb (v =? 1) then Some None else
  do t <- rd1 f 1;
  if negb (t =? 3) then Some None else
  do body_len <- eapol_rd16 f 2;
  if len <? body_len + 4 then Some None else
  if body_len <? 95 then Some None else
  do desc <- rd1 f 4;
  if negb (desc =? 2) then Some None else
  do kdl <- eapol_rd16 f 97;
  if body_len <? 95 + kdl then Some None else
  do info <- eapol_rd16 f 5;
  do klen <- eapol_rd16 f 7;
  do replay <- mread f 9 8;
  do nonce <- mread f 17 32;
  do mic <- mread f 81 16;
  do data <- mread f 99 kdl;
  Some (Some (mkKv (body_len + 4) body_len info klen replay nonce mic data)).

(** eapol.c:68-118 eapol_key_build into [out] (out_cap = zlen out); the new buffer and
    the total length, or -1 with the buffer unchanged. [replay], [nonce]: arrays of 8
    and 32 bytes. key_data_len is a uint16_t. *)
Definition eapol_key_build (out : list Z) (info klen : Z) (replay nonce data : list Z) : option (list Z * option Z) :=
  let kdl := zlen data in
  if 65535 <? 95 + kdl then Some (out, None) else
  let total := 99 + kdl in
  if zlen out <? total then Some (out, None) else
  do m <- mwrite out 0 (repeat 0 (Z.to_nat total));
  do m <- mwrite m 0 [2];
  do m <- mwrite m 1 [3];
  do m <- eapol_wr16 m 2 (95 + kdl);
  do m <- mwrite m 4 [2];
  do m <- eapol_wr16 m 5 info;
  do m <- eapol_wr16 m 7 klen;
  do r <- mread replay 0 8;
  do m <- mwrite m 9 r;
  do n <- mread nonce 0 32;
  do m <- mwrite m 17 n;
  do m <- eapol_wr16 m 97 kdl;
  do m <- (if 0 <? kdl then mwrite m 99 data else Some m);
  Some (m, Some total).

(** eap.h struct eap_view *)
Record eview := mkEv { ev_code : Z; ev_id : Z; ev_length : Z; ev_type : Z; ev_data : list Z }.
(** eap.c:18-50 eap_parse *)
Definition eap_parse (b : list Z) : option (option eview) :=
  if zlen b <? 4 then Some None else
  do code <- rd1 b 0;
  do id <- rd1 b 1;
  do total <- eapol_rd16 b 2;
  if (total <? 4) || (zlen b <? total) then Some None else
  if (code =? 1) || (code =? 2) then
    if total <? 5 then Some None else
    do ty <- rd1 b 4;
    do data <- mread b 5 (total - 5);
    Some (Some (mkEv code id total ty data))
  else Some (Some (mkEv code id total 0 [])).

(** eap.c:52-83 eapol_eap_build *)
Definition eapol_eap_build (out : list Z) (ty : Z) (payload : list Z) : option (list Z * option Z) :=
  let pl := zlen payload in
  if 65535 <? pl then Some (out, None) else
  let total := 4 + pl in
  if zlen out <? total then Some (out, None) else
  do m <- mwrite out 0 [2];
  do m <- mwrite m 1 [ty];
  do m <- mwrite m 2 [u8 (pl / 256)];
  do m <- mwrite m 3 [u8 pl];
  do m <- (if 0 <? pl then mwrite m 4 payload else Some m);
  Some (m, Some total).

(** eap.c:85-114 eap_build_identity_response *)
Definition eap_build_identity_response (out : list Z) (id : Z) (identity : list Z) : option (list Z * option Z) :=
  let total := 5 + zlen identity in
  if (zlen out <? total) || (65535 <? total) then Some (out, None) else
  do m <- mwrite out 0 [2];
  do m <- mwrite m 1 [id];
  do m <- mwrite m 2 [u8 (total / 256)];
  do m <- mwrite m 3 [u8 total];
  do m <- mwrite m 4 [1];
  do m <- (if 0 <? zlen identity then mwrite m 5 identity else Some m);
  Some (m, Some total).

(** rsn_ie.c:18-22 wr16_le, 24-60 rsn_ie_build_wpa2_psk_ex *)
Definition wr16_le (m : list Z) (o v : Z) : option (list Z) := mwrite m o [u8 v; u8 (v / 256)].
Definition rsn_ie_build (out : list Z) (caps : Z) : option (list Z * option Z) :=
  if zlen out <? 22 then Some (out, None) else
  do m <- mwrite out 0 [48; 20];
  do m <- wr16_le m 2 1;
  do m <- mwrite m 4 [0; 15; 172; 4];
  do m <- wr16_le m 8 1;
  do m <- mwrite m 10 [0; 15; 172; 4];
  do m <- wr16_le m 14 1;
  do m <- mwrite m 16 [0; 15; 172; 2];
  do m <- wr16_le m 20 caps;
  Some (m, Some 22).

(** rsn_ie.c:64-74 rsn_ie_equal (memcmp = 0) *)
Fixpoint bytes_eqb (a b : list Z) : bool :=
  match a, b with [], [] => true | x :: a, y :: b => (x =? y) && bytes_eqb a b | _, _ => false end.
Definition rsn_ie_equal (a b : list Z) : bool := (zlen a =? zlen b) && bytes_eqb a b.
