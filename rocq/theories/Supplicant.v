(** The WPA supplicant state machine.
    Source: /repo/src/supplicant/supplicant.c:55-300, 480-1806 in a build with
    WOLFIP_ENABLE_EAP_TLS and WOLFIP_ENABLE_SAE (PEAP, 300-476, is compiled out).
    Cryptography (wpa_crypto.c, sae_crypto.c, wolfCrypt, the TLS library) is a record
    of arbitrary functions [crypto] or an answer in [env]: the theorems hold for all.
    [None] is an access outside a buffer. *)
From Verif Require Import Base HttpUrl EapTls Eapol.

(** wpa_crypto.h struct wpa_ptk *)
Record ptk_t := mkPtk { p_kck : list Z; p_kek : list Z; p_tk : list Z }.
(** The primitives used: PTK derivation (by AKM family), EAPOL MIC, AES key unwrap,
    PBKDF2, SHA-256. [None]: the primitive reports an error. *)
Record crypto := mkCr {
  cr_ptk : bool -> list Z -> list Z -> list Z -> list Z -> list Z -> option ptk_t;
  cr_mic : bool -> list Z -> list Z -> option (list Z);
  cr_unwrap : list Z -> list Z -> option (list Z);
  cr_pmk : list Z -> list Z -> option (list Z);
  cr_hash : list Z -> option (list Z) }.
(** What the outside answers during one call: the random generator, send_eapol,
    install_key (pairwise, group), the TLS library (its reads and writes of the EAP
    buffers, its verdict, "handshake complete", MSK), send_auth_frame and SAE. *)
Record env := mkEnv {
  e_snonce : option (list Z); e_send : bool; e_inst_p : bool; e_inst_g : bool;
  e_tls : list eop; e_tls_ok : bool; e_tls_done : bool; e_msk : option (list Z);
  e_sae_commit : bool; e_sae_parse : bool; e_sae_derive : option (list Z * list Z); e_sae_confirm : bool;
  e_sae_kck : Z; e_sae_verify : bool }.

(** supplicant.h wolfip_auth_mode_t, wolfip_supplicant_state_t (the states in use) *)
Inductive amode := PSK | EAPTLS | SAE.
Inductive sstate := Idle | EapWait | EapProg | SaeCommit | SaeConfirm | M1Wait | M3Wait | Auth | Failed.

(** struct wolfip_supplicant_cfg; [c_caps]: mfp_capable, mfp_required; [c_eap_ok], [c_sae_ok]:
    the results of the TLS engine and dragonfly initialisations; [c_certs]: CA,
    certificate and key supplied. *)
Record config := mkCfg {
  c_mode : amode; c_ssid : list Z; c_pass : option (list Z); c_psk : option (list Z);
  c_ident : list Z; c_certs : bool; c_eap_ok : bool; c_sae_ok : bool; c_h2e : bool;
  c_ap : list Z; c_sta : list Z; c_mfpc : bool; c_mfpr : bool; c_apie : list Z;
  c_send : bool; c_inst : bool; c_auth : bool }.

(** The PMKSA entry (the pmksa fields), [None] when pmksa_magic is not the magic. *)
Record pmksa := mkQ { q_pmk : list Z; q_ssid : list Z; q_bssid : list Z; q_pp : option (list Z); q_pmkid : option (list Z) }.
(** The part of the context fixed by init. *)
Record fixed := mkF { f_mode : amode; f_ssid : list Z; f_ap : list Z; f_sta : list Z; f_apie : list Z;
  f_ident : list Z; f_send : bool; f_inst : bool; f_auth : bool; f_h2e : bool; f_pp : option (list Z) }.
(** The state of the four-way handshake. *)
Record hs := mkH { h_ptk : ptk_t; h_have_ptk : bool; h_anonce : list Z; h_snonce : list Z; h_replay : list Z; h_have_replay : bool }.
Record supp := mkS { x_f : fixed; x_state : sstate; x_own : list Z; x_pmk : list Z; x_h : hs;
  x_m2_send : Z; x_m2_left : Z; x_hs : Z; x_io : io; x_tls_done : bool; x_pmk_inst : bool; x_pmkid_in : bool;
  x_sae : list Z * list Z; x_cache : option pmksa }.

Definition set_state (s : supp) (v : sstate) := mkS (x_f s) v (x_own s) (x_pmk s) (x_h s) (x_m2_send s) (x_m2_left s) (x_hs s) (x_io s) (x_tls_done s) (x_pmk_inst s) (x_pmkid_in s) (x_sae s) (x_cache s).
Definition set_own (s : supp) v := mkS (x_f s) (x_state s) v (x_pmk s) (x_h s) (x_m2_send s) (x_m2_left s) (x_hs s) (x_io s) (x_tls_done s) (x_pmk_inst s) true (x_sae s) (x_cache s).
Definition set_pmk (s : supp) v := mkS (x_f s) (x_state s) (x_own s) v (x_h s) (x_m2_send s) (x_m2_left s) (x_hs s) (x_io s) (x_tls_done s) (x_pmk_inst s) (x_pmkid_in s) (x_sae s) (x_cache s).
Definition set_h (s : supp) v := mkS (x_f s) (x_state s) (x_own s) (x_pmk s) v (x_m2_send s) (x_m2_left s) (x_hs s) (x_io s) (x_tls_done s) (x_pmk_inst s) (x_pmkid_in s) (x_sae s) (x_cache s).
Definition set_m2 (s : supp) t n := mkS (x_f s) (x_state s) (x_own s) (x_pmk s) (x_h s) t n (x_hs s) (x_io s) (x_tls_done s) (x_pmk_inst s) (x_pmkid_in s) (x_sae s) (x_cache s).
Definition set_hs (s : supp) t := mkS (x_f s) (x_state s) (x_own s) (x_pmk s) (x_h s) (x_m2_send s) (x_m2_left s) t (x_io s) (x_tls_done s) (x_pmk_inst s) (x_pmkid_in s) (x_sae s) (x_cache s).
Definition set_io (s : supp) i d := mkS (x_f s) (x_state s) (x_own s) (x_pmk s) (x_h s) (x_m2_send s) (x_m2_left s) (x_hs s) i d (x_pmk_inst s) (x_pmkid_in s) (x_sae s) (x_cache s).
Definition set_inst (s : supp) := mkS (x_f s) (x_state s) (x_own s) (x_pmk s) (x_h s) (x_m2_send s) (x_m2_left s) (x_hs s) (x_io s) (x_tls_done s) true (x_pmkid_in s) (x_sae s) (x_cache s).
Definition set_sae (s : supp) v := mkS (x_f s) (x_state s) (x_own s) (x_pmk s) (x_h s) (x_m2_send s) (x_m2_left s) (x_hs s) (x_io s) (x_tls_done s) (x_pmk_inst s) (x_pmkid_in s) v (x_cache s).
Definition set_cache (s : supp) v := mkS (x_f s) (x_state s) (x_own s) (x_pmk s) (x_h s) (x_m2_send s) (x_m2_left s) (x_hs s) (x_io s) (x_tls_done s) (x_pmk_inst s) (x_pmkid_in s) (x_sae s) v.

(** Calls made to the outside: random bytes drawn, EAPOL frames and authentication
    frames sent (1 Commit, 2 Confirm), keys handed to install_key and its
    result. *)
Inductive sout := ODraw (n : list Z) | OSend (f : list Z) | OAuth (seq : Z) | OInstall (pairwise : bool) (idx : Z) (key : list Z) (ok : bool).

(** The all-zero context (static storage, wolfip_supplicant_deinit 1308-1328). *)
Definition zeros (n : nat) : list Z := repeat 0 n.
Definition h_zero : hs := mkH (mkPtk (zeros 16) (zeros 16) (zeros 16)) false (zeros 32) (zeros 32) (zeros 8) false.
Definition s_zero : supp := mkS (mkF PSK [] (zeros 6) (zeros 6) [] [] false false false false None) Idle [] (zeros 32) h_zero
  0 0 0 io_reset false false false (zeros 32, zeros 16) None.

(** supplicant.c:92-108 supp_is_cmac_akm, supp_key_desc_ver *)
Definition is_cmac (s : supp) : bool := match f_mode (x_f s) with SAE => true | _ => false end.
Definition desc_ver (s : supp) : Z := if is_cmac s then 0 else 2.
(** :133-138 supp_key_info_has *)
Definition key_info_has (info req forb : Z) : bool := (Z.land info req =? req) && (Z.land info forb =? 0).

(** :143-153 supp_verify_frame_mic with rx_frame_copy (355 bytes) holding the frame *)
Definition verify_mic (c : crypto) (s : supp) (k : kview) (copy : list Z) : option bool :=
  if zlen copy <? kv_frame_len k then Some false else
  do copy <- mwrite copy (4 + 77) (repeat 0 16);
  do fr <- mread copy 0 (kv_frame_len k);
  Some (match cr_mic c (is_cmac s) (p_kck (h_ptk (x_h s))) fr with Some m => bytes_eqb m (kv_mic k) | None => false end).

(** :158-198 supp_send_key (buffer of 163 bytes; mic_required is always 1): sent frames and success *)
Definition send_key (c : crypto) (e : env) (s : supp) (info klen : Z) (replay nonce data : list Z) : option (list sout * bool) :=
  if 163 <? 99 + zlen data then Some ([], false) else
  do (buf, t) <- eapol_key_build (repeat 0 163) info klen replay nonce data;
  match t with
  | None => Some ([], false)
  | Some total =>
      do fr <- mread buf 0 total;
      match cr_mic c (is_cmac s) (p_kck (h_ptk (x_h s))) fr with
      | None => Some ([], false)
      | Some mic =>
          do buf <- mwrite buf (4 + 77) mic;
          if negb (f_send (x_f s)) then Some ([], false) else
          do fr <- mread buf 0 total;
          Some ([OSend fr], e_send e)
      end
  end.

(** :616-631 supp_send_m2 (uint16_t own_rsn_ie_len) *)
Definition send_m2 (c : crypto) (e : env) (s : supp) : option (list sout * bool) :=
  send_key c e s (Z.lor (Z.lor (desc_ver s) 8) 256) 16 (h_replay (x_h s)) (h_snonce (x_h s)) (x_own s).

(** Results of the handlers: state, calls made, success. *)
Definition hres : Type := supp * list sout * bool.

(** :635-680 supp_handle_m1 *)
Definition handle_m1 (c : crypto) (e : env) (s : supp) (k : kview) (now : Z) : option hres :=
  if negb (key_info_has (kv_info k) (8 + 128) 256) then Some (s, [], false) else
  let h := x_h s in
  let s := set_h s (mkH (h_ptk h) (h_have_ptk h) (kv_nonce k) (h_snonce h) (h_replay h) (h_have_replay h)) in
  match e_snonce e with
  | None => Some (s, [], false)
  | Some sn =>
      let h := x_h s in
      let s := set_h s (mkH (h_ptk h) (h_have_ptk h) (h_anonce h) sn (h_replay h) (h_have_replay h)) in
      match cr_ptk c (is_cmac s) (x_pmk s) (f_ap (x_f s)) (f_sta (x_f s)) (kv_nonce k) sn with
      | None => Some (s, [ODraw sn], false)
      | Some p =>
          let s := set_h s (mkH p true (kv_nonce k) sn (kv_replay k) true) in
          do (o, ok) <- send_m2 c e s;
          if negb ok then Some (s, ODraw sn :: o, false)
          else Some (set_state (set_m2 s now 3) M3Wait, ODraw sn :: o, true)
      end
  end.

(** :722-774 the KDE walk of supp_parse_key_data; state: RSN match, GTK (index, key) *)
Fixpoint kde_walk (fuel : nat) (plain : list Z) (rsn : bool) (apie : list Z) (i : Z) (m : bool) (g : option (Z * list Z)) : option (option (bool * option (Z * list Z))) :=
  match fuel with
  | O => Some (Some (m, g))
  | S fuel =>
      if zlen plain <? i + 2 then Some (Some (m, g)) else
      do ty <- rd1 plain i;
      do len <- rd1 plain (i + 1);
      if zlen plain <? i + 2 + len then Some (Some (m, g)) else
      let stop := i + 2 + len in
      if rsn && (ty =? 48) then
        do ie <- mread plain i (len + 2);
        if rsn_ie_equal ie apie then kde_walk fuel plain rsn apie stop true g else Some None
      else
        do isgtk <- (if (ty =? 221) && (6 <=? len) then
                       do a <- rd1 plain (i + 2); do b <- rd1 plain (i + 3); do d <- rd1 plain (i + 4); do t <- rd1 plain (i + 5);
                       Some ((a =? 0) && (b =? 15) && (d =? 172) && (t =? 1))
                     else Some false);
        if isgtk : bool then
          let n := len - 6 in
          if (n =? 0) || (32 <? n) then Some None else
          do x <- rd1 plain (i + 6);
          do key <- mread plain (i + 8) n;
          do buf <- mwrite (repeat 0 32) 0 key;    (* out_gtk[WPA_GTK_MAX_LEN] *)
          do key <- mread buf 0 n;
          kde_walk fuel plain rsn apie stop m (Some (Z.land x 3, key))
        else kde_walk fuel plain rsn apie stop m g
  end.
(** :695-780 supp_parse_key_data: [Some (Some (idx, key))] on success *)
Definition parse_key_data (c : crypto) (s : supp) (k : kview) (rsn : bool) : option (option (Z * list Z)) :=
  let n := zlen (kv_data k) in
  if (n <? 24) || (264 <? n) then Some None else
  if negb (n mod 8 =? 0) then Some None else
  if Z.land (kv_info k) 4096 =? 0 then Some None else
  match cr_unwrap c (p_kek (h_ptk (x_h s))) (kv_data k) with
  | None => Some None
  | Some plain =>
      do r <- kde_walk (length plain) plain rsn (f_apie (x_f s)) 0 false None;
      Some (match r with
            | Some (m, Some g) => if rsn && negb m then None else Some g
            | _ => None
            end)
  end.

(** memcmp on replay counters: is the first argument greater? *)
Fixpoint memcmp (a b : list Z) : comparison :=
  match a, b with
  | x :: a, y :: b => if x =? y then memcmp a b else if x <? y then Lt else Gt
  | _, _ => Eq
  end.
Definition newer (a b : list Z) : bool := match memcmp a b with Gt => true | _ => false end.

(** :785-845 supp_handle_group_m1 *)
Definition handle_group_m1 (c : crypto) (e : env) (s : supp) (k : kview) (copy : list Z) : option hres :=
  if negb (key_info_has (kv_info k) (128 + 256 + 512 + 4096) 0) then Some (s, [], false) else
  let h := x_h s in
  if h_have_replay h && negb (newer (kv_replay k) (h_replay h)) then Some (s, [], false) else
  do v <- verify_mic c s k copy;
  if negb v then Some (s, [], false) else
  do g <- parse_key_data c s k false;
  match g with
  | None => Some (s, [], false)
  | Some (idx, key) =>
      let o1 := if f_inst (x_f s) then [OInstall false idx key (e_inst_g e)] else [] in
      if f_inst (x_f s) && negb (e_inst_g e) then Some (s, o1, false) else
      let s := set_h s (mkH (h_ptk h) (h_have_ptk h) (h_anonce h) (h_snonce h) (kv_replay k) (h_have_replay h)) in
      do (o, ok) <- send_key c e s (Z.lor (Z.lor (desc_ver s) 256) 512) 0 (kv_replay k) (repeat 0 32) [];
      Some (s, o1 ++ o, ok)
  end.

(** :850-945 supp_handle_m3 *)
Definition handle_m3 (c : crypto) (e : env) (s : supp) (k : kview) (copy : list Z) : option hres :=
  if negb (key_info_has (kv_info k) (8 + 128 + 256 + 64) 0) then Some (s, [], false) else
  let h := x_h s in
  if h_have_replay h && negb (newer (kv_replay k) (h_replay h)) then Some (s, [], false) else
  if negb (bytes_eqb (kv_nonce k) (h_anonce h)) then Some (s, [], false) else
  do v <- verify_mic c s k copy;
  if negb v then Some (s, [], false) else
  do g <- parse_key_data c s k true;
  match g with
  | None => Some (s, [], false)
  | Some (idx, key) =>
      let inst := f_inst (x_f s) in
      let o1 := if inst then OInstall true 0 (p_tk (h_ptk h)) (e_inst_p e) :: (if e_inst_p e && (0 <? zlen key) then [OInstall false idx key (e_inst_g e)] else []) else [] in
      if inst && negb (e_inst_p e && (negb (0 <? zlen key) || e_inst_g e)) then Some (s, o1, false) else
      let s := set_h s (mkH (h_ptk h) (h_have_ptk h) (h_anonce h) (h_snonce h) (kv_replay k) (h_have_replay h)) in
      do (o, ok) <- send_key c e s (Z.lor (Z.lor (Z.lor (desc_ver s) 8) 256) 512) 16 (kv_replay k) (repeat 0 32) [];
      if negb ok then Some (s, o1 ++ o, false) else
      let q := mkQ (x_pmk s) (f_ssid (x_f s)) (f_ap (x_f s)) (f_pp (x_f s)) (match f_mode (x_f s) with SAE => Some (snd (x_sae s)) | _ => None end) in
      Some (set_state (set_cache s (Some q)) Auth, o1 ++ o, true)
  end.

(** :1580-1597 supp_handle_m1_retransmit *)
Definition m1_retransmit (c : crypto) (e : env) (s : supp) (k : kview) (now : Z) : option (option (supp * list sout)) :=
  if negb (key_info_has (kv_info k) (8 + 128) 256) then Some None else
  if h_have_ptk (x_h s) && bytes_eqb (kv_nonce k) (h_anonce (x_h s)) then
    do (o, ok) <- send_m2 c e s;
    Some (Some (if ok : bool then set_m2 s now 3 else s, o))
  else Some (Some (s, [])).

(** :1602-1662 supp_rx_key *)
Definition rx_key (c : crypto) (e : env) (s : supp) (f : list Z) (now : Z) : option hres :=
  do r <- eapol_key_parse f;
  match r with
  | None => Some (s, [], false)
  | Some k =>
      if negb (Z.land (kv_info k) 7 =? desc_ver s) then Some (s, [], false) else
      if 355 <? kv_frame_len k then Some (s, [], false) else
      do fr <- mread f 0 (kv_frame_len k);
      do copy <- mwrite (repeat 0 355) 0 fr;
      match x_state s with
      | M1Wait =>
          do (s, o, ok) <- handle_m1 c e s k now;
          Some (if ok : bool then s else set_state s Failed, o, ok)
      | M3Wait =>
          do m <- m1_retransmit c e s k now;
          match m with
          | Some (s, o) => Some (s, o, true)
          | None =>
              do (s, o, ok) <- handle_m3 c e s k copy;
              Some (if ok : bool then s else set_state s Failed, o, ok)
          end
      | Auth => if Z.land (kv_info k) 8 =? 0 then handle_group_m1 c e s k copy else Some (s, [], false)
      | _ => Some (s, [], false)
      end
  end.

(** :219-240 supp_send_eapol_packet (buffer 4 + 1024 + 32) *)
Definition send_packet (e : env) (s : supp) (ty : Z) (payload : list Z) : option (list sout * bool) :=
  if 1060 <? zlen payload + 4 then Some ([], false) else
  do (buf, t) <- eapol_eap_build (repeat 0 1060) ty payload;
  match t with
  | None => Some ([], false)
  | Some total => if negb (f_send (x_f s)) then Some ([], false) else do fr <- mread buf 0 total; Some ([OSend fr], e_send e)
  end.
(** :247-258 supp_send_eap_identity (buffer 4 + 1 + 64) *)
Definition send_identity (e : env) (s : supp) (id : Z) : option (list sout * bool) :=
  do (buf, t) <- eap_build_identity_response (repeat 0 69) id (f_ident (x_f s));
  match t with None => Some ([], false) | Some total => do p <- mread buf 0 total; send_packet e s 0 p end.
(** :260-299 supp_send_eap_tls_typed, eap_tls.c:202-212 eap_tls_build_ack *)
Definition send_eap_tls (e : env) (s : supp) (id : Z) (ack : bool) : option (supp * list sout * bool) :=
  do r <- (if ack then Some (s, Some [0]) else do (i, p) <- tx_fragment (x_io s) 1024; Some (set_io s i (x_tls_done s), match p with Some (p, _) => Some p | None => None end));
  let '(s, p) := r in
  match p with
  | None => Some (s, [], false)
  | Some p =>
      let total := 5 + zlen p in
      if 65535 <? total then Some (s, [], false) else
      do (o, ok) <- send_packet e s 0 ([2; id; u8 (total / 256); u8 total; 13] ++ p);
      Some (s, o, ok)
  end.
(** eap_tls_engine.c eap_tls_engine_step: the TLS library reads and writes the EAP
    buffers through its callbacks, then reports *)
Definition tls_step (e : env) (s : supp) : option (supp * bool) :=
  do (i, _) <- erun (x_io s) (filter (fun o => match o with ERecv _ | ESend _ => true | _ => false end) (e_tls e));
  Some (set_io s i (x_tls_done s || (e_tls_ok e && e_tls_done e)), e_tls_ok e).

(** :478-545 supp_handle_eap_request *)
Definition eap_request (e : env) (s : supp) (v : eview) : option hres :=
  if ev_type v =? 1 then
    match x_state s with
    | EapWait | EapProg =>
        do (o, ok) <- send_identity e s (ev_id v);
        if negb ok then Some (s, o, false) else Some (set_state s EapProg, o, true)
    | _ => Some (s, [], false)
    end
  else if ev_type v =? 13 then
    match x_state s with
    | EapProg =>
        do (i, rc) <- rx_fragment (x_io s) (ev_data v);
        let s := set_io s i (x_tls_done s) in
        if rc <? 0 then Some (s, [], false) else
        if negb (rc =? 1) && negb (rx_complete i) then send_eap_tls e s (ev_id v) true else
        do (s, ok) <- tls_step e s;
        if negb ok then Some (s, [], false) else
        if 0 <? zlen (tx_buf (x_io s)) then send_eap_tls e s (ev_id v) false else send_eap_tls e s (ev_id v) true
    | _ => Some (s, [], false)
    end
  else Some (s, [], false).
(** :547-572 supp_handle_eap_success *)
Definition eap_success (e : env) (s : supp) : option hres :=
  match f_mode (x_f s), x_state s with
  | EAPTLS, EapProg =>
      if negb (x_tls_done s) then Some (s, [], false) else
      match e_msk e with
      | None => Some (s, [], false)
      | Some msk => do p <- mread msk 0 32; Some (set_state (set_pmk s p) M1Wait, [], true)
      end
  | _, _ => Some (s, [], false)
  end.
(** :575-612 supp_rx_eap *)
Definition rx_eap (e : env) (s : supp) (f : list Z) : option hres :=
  do n <- eapol_rd16 f 2;
  if zlen f <? n + 4 then Some (s, [], false) else
  do body <- mread f 4 n;
  do r <- eap_parse body;
  match r with
  | None => Some (s, [], false)
  | Some v =>
      if ev_code v =? 1 then do (s, o, ok) <- eap_request e s v; Some (if ok : bool then s else set_state s Failed, o, ok)
      else if ev_code v =? 3 then do (s, o, ok) <- eap_success e s; Some (if ok : bool then s else set_state s Failed, o, ok)
      else if ev_code v =? 4 then Some (set_state s Failed, [], false)
      else Some (s, [], false)
  end.
(** :1664-1690 wolfip_supplicant_rx *)
Definition supp_rx (c : crypto) (e : env) (s : supp) (f : list Z) (now : Z) : option hres :=
  if zlen f <? 4 then Some (s, [], false) else
  do t <- rd1 f 1;
  if t =? 0 then rx_eap e s f else
  if negb (t =? 3) then Some (s, [], false) else rx_key c e s f now.

(** :1408-1450 wolfip_supplicant_kick *)
Definition kick (e : env) (s : supp) (now : Z) : option hres :=
  match x_state s with
  | Idle =>
      let s := set_hs (set_m2 s now 3) now in
      match f_mode (x_f s) with
      | EAPTLS => do (o, ok) <- send_packet e s 1 []; if negb ok then Some (s, o, false) else Some (set_state s EapWait, o, true)
      | SAE => if x_pmk_inst s then Some (set_state s M1Wait, [], true) else
               if negb (f_auth (x_f s) && e_sae_commit e) then Some (s, [], false) else Some (set_state s SaeCommit, [OAuth 1], true)
      | PSK => Some (set_state s M1Wait, [], true)
      end
  | _ => Some (s, [], false)
  end.

(** :1341-1347 sae_auth_hdr_read (little endian) *)
Definition rd16_le (f : list Z) (o : Z) : option Z := do a <- rd1 f o; do b <- rd1 f (o + 1); Some (a + 256 * b).
(** :1453-1523 wolfip_supplicant_rx_auth_frame *)
Definition rx_auth (e : env) (s : supp) (f : list Z) : option hres :=
  if zlen f <? 6 then Some (s, [], false) else
  match f_mode (x_f s) with
  | SAE =>
      do alg <- rd16_le f 0; do seq <- rd16_le f 2; do status <- rd16_le f 4;
      if negb (alg =? 3) then Some (s, [], false) else
      if negb (status =? (if (seq =? 1) && f_h2e (x_f s) then 126 else 0)) then Some (set_state s Failed, [], false) else
      if seq =? 1 then
        match x_state s with
        | SaeCommit =>
            if negb (e_sae_parse e) then Some (set_state s Failed, [], false) else
            match e_sae_derive e with
            | None => Some (set_state s Failed, [], false)
            | Some v =>
                let s := set_sae s v in
                if negb (f_auth (x_f s) && e_sae_confirm e) then Some (set_state s Failed, [], false)
                else Some (set_state s SaeConfirm, [OAuth 2], true)
            end
        | _ => Some (s, [], false)
        end
      else if seq =? 2 then
        match x_state s with
        | SaeConfirm =>
            if zlen f <? 8 + e_sae_kck e then Some (s, [], false) else
            do _ <- rd16_le f 6;
            if negb (e_sae_verify e) then Some (set_state s Failed, [], false)
            else Some (set_state (set_pmk s (fst (x_sae s))) M1Wait, [], true)
        | _ => Some (s, [], false)
        end
      else Some (s, [], false)
  | _ => Some (s, [], false)
  end.

(** :1526-1568 wolfip_supplicant_tick *)
Definition nonterminal (v : sstate) : bool := match v with Idle | Auth | Failed => false | _ => true end.
Definition tick (c : crypto) (e : env) (s : supp) (now : Z) : option (supp * list sout) :=
  if nonterminal (x_state s) && (x_hs s <? now) && (10000 <=? now - x_hs s) then Some (set_state s Failed, []) else
  match x_state s with
  | M3Wait =>
      if now <=? x_m2_send s then Some (s, []) else
      if now - x_m2_send s <? 1000 then Some (s, []) else
      if x_m2_left s =? 0 then Some (set_state s Failed, []) else
      let s := set_m2 s (x_m2_send s) (x_m2_left s - 1) in
      do (o, ok) <- send_m2 c e s;
      if negb ok then Some (set_state s Failed, o) else Some (set_m2 s now (x_m2_left s), o)
  | _ => Some (s, [])
  end.

(** :950-1020 supp_validate_cfg *)
Definition validate (g : config) : bool :=
  negb (zlen (c_ssid g) =? 0) && (zlen (c_ssid g) <=? 32) && c_send g &&
  match c_mode g with
  | PSK => match c_psk g with Some p => zlen p =? 32 | None => match c_pass g with Some _ => true | None => false end end
  | EAPTLS => negb (zlen (c_ident g) =? 0) && (zlen (c_ident g) <=? 64) && c_certs g
  | SAE => match c_pass g with Some p => (8 <=? zlen p) && (zlen p <=? 63) | None => false end
  end.
(** :1203-1242 supp_build_rsn_ies (buffers of 64 bytes) *)
Definition build_ies (g : config) : option (list Z * list Z) :=
  let caps := Z.lor (if c_mfpc g then 128 else 0) (if c_mfpr g then Z.lor 64 128 else 0) in
  do (buf, t) <- rsn_ie_build (repeat 0 64) caps;
  match t with
  | None => None
  | Some n =>
      do ie <- mread buf 0 n;
      do ie <- mwrite ie (n - 3) [match c_mode g with SAE => 8 | EAPTLS => 1 | PSK => 2 end];
      Some (ie, if (0 <? zlen (c_apie g)) && (zlen (c_apie g) <=? 64) then c_apie g else ie)
  end.
(** :1244-1306 wolfip_supplicant_init with 1043-1116 (PMKSA snapshot and restore,
    supp_init_psk, supp_init_sae, supp_init_eap) *)
Definition init (c : crypto) (s : supp) (g : config) : option (supp * bool) :=
  if negb (validate g) then Some (s, false) else
  let hit := match x_cache s with Some q => bytes_eqb (q_ssid q) (c_ssid g) | None => false end in
  let cache := if hit then x_cache s else None in
  let pp := match c_mode g, c_psk g, c_pass g with PSK, None, Some p => cr_hash c p | _, _, _ => None end in
  let pmk := match c_mode g with
             | PSK => match c_psk g with
                      | Some p => Some p
                      | None =>
                          match pp, cache with
                          | Some h, Some (mkQ qp _ _ (Some qh) _) => if bytes_eqb h qh then Some qp else cr_pmk c (match c_pass g with Some p => p | None => [] end) (c_ssid g)
                          | _, _ => cr_pmk c (match c_pass g with Some p => p | None => [] end) (c_ssid g)
                          end
                      end
             | EAPTLS => if c_eap_ok g then Some (zeros 32) else None
             | SAE => if c_sae_ok g then Some (zeros 32) else None
             end in
  match pmk with
  | None => Some (s_zero, false)
  | Some pmk =>
      do (own, apie) <- build_ies g;
      Some (mkS (mkF (c_mode g) (c_ssid g) (c_ap g) (c_sta g) apie (c_ident g) (c_send g) (c_inst g) (c_auth g) (c_h2e g) pp) Idle own pmk h_zero
              0 0 0 io_reset false false false (zeros 32, zeros 16) cache, true)
  end.
(** :1397-1405 wolfip_supplicant_install_pmk *)
Definition install_pmk (s : supp) (p : list Z) : supp * bool :=
  if negb (zlen p =? 32) then (s, false) else
  match f_mode (x_f s) with SAE => (set_inst (set_pmk s p), true) | _ => (s, false) end.
(** :1748-1806 wolfip_supplicant_pmksa_reconnect (own_rsn_ie[64]) *)
Definition reconnect (s : supp) : option (supp * bool) :=
  match x_cache s with
  | Some (mkQ qp qs qb _ (Some qid)) =>
      if negb (bytes_eqb qs (f_ssid (x_f s)) && bytes_eqb qb (f_ap (x_f s))) then Some (s, false) else
      do r <- (if x_pmkid_in s then Some (Some s) else
               let n := zlen (x_own s) in
               if negb ((n + 18 <=? 64) && (22 <=? n)) then Some None else
               do l <- rd1 (x_own s) 1;
               if 255 <? l + 18 then Some None else
               do ie <- mwrite (x_own s ++ [1; 0] ++ qid) 1 [u8 (l + 18)];
               Some (Some (set_own s ie)));
      match r with
      | None => Some (s, false)
      | Some s =>
          let s := set_inst (set_pmk s qp) in
          let h := x_h s in
          let s := set_h (set_state s Idle) (mkH (h_ptk h) false (zeros 32) (zeros 32) (h_replay h) false) in
          Some (set_m2 s (x_m2_send s) 0, true)
      end
  | _ => Some (s, false)
  end.

(** Histories: calls with what the outside answers. *)
Inductive sop := SInit (g : config) | SDeinit | SKick (now : Z) (e : env) | SRx (f : list Z) (now : Z) (e : env)
  | SAuth (f : list Z) (e : env) | STick (now : Z) (e : env) | SInstallPmk (p : list Z) | SReconnect | SClear.
Definition sstep (c : crypto) (s : supp) (o : sop) : option hres :=
  match o with
  | SInit g => do (s, ok) <- init c s g; Some (s, [], ok)
  | SDeinit => Some (s_zero, [], true)
  | SKick now e => kick e s now
  | SRx f now e => supp_rx c e s f now
  | SAuth f e => rx_auth e s f
  | STick now e => do (s, o) <- tick c e s now; Some (s, o, true)
  | SInstallPmk p => let '(s, ok) := install_pmk s p in Some (s, [], ok)
  | SReconnect => do (s, ok) <- reconnect s; Some (s, [], ok)
  | SClear => Some (set_cache s None, [], true)
  end.
(** A trace entry: the call, the calls it made, its success, the context after it. *)
Record entry := mkE { t_op : sop; t_out : list sout; t_ok : bool; t_after : supp }.
Fixpoint srun (c : crypto) (s : supp) (os : list sop) : option (list entry) :=
  match os with
  | [] => Some []
  | o :: os => do (s, out, ok) <- sstep c s o; do t <- srun c s os; Some (mkE o out ok s :: t)
  end.
