(** Specification for the supplicant (C34): IEEE 802.11-2020 12.7.6, 12.7.7. *)
From Verif Require Import Base HttpUrl EapTls EapTlsProps Eapol EapolProps ForwardSpec Supplicant.

(** Fields of an EAPOL-Key frame. *)
Definition bit (f : list Z) (n : Z) : Prop := Z.testbit (word f 5) n = true.
Definition b_pairwise := 3. Definition b_install := 6. Definition b_ack := 7. Definition b_mic := 8.
Definition b_secure := 9. Definition b_encrypted := 12.
Definition version (f : list Z) : Z := word f 5 mod 8.
Definition num (l : list Z) : Z := fold_left (fun a b => 256 * a + b) l 0.
Definition counter (f : list Z) : Z := num (part f 9 8).
Definition nonce (f : list Z) : list Z := part f 17 32.
Definition key_data (f : list Z) : list Z := part f 99 (word f 97).
(** The bytes covered by the MIC: the 802.1X packet with the MIC field zero. *)
Definition mic_input (f : list Z) : list Z := part f 0 81 ++ repeat 0 16 ++ part f 97 (word f 2 - 93).
Definition mic_valid (c : crypto) (cmac : bool) (kck f : list Z) : Prop := cr_mic c cmac kck (mic_input f) = Some (part f 81 16).

(** Message shapes. *)
Definition cmac_of (m : amode) : bool := match m with SAE => true | _ => false end.
Definition right_version (m : amode) (f : list Z) : Prop := version f = (if cmac_of m then 0 else 2).
Definition is_m1 (f : list Z) : Prop := key_frame f /\ bit f b_pairwise /\ bit f b_ack /\ ~ bit f b_mic.
Definition is_m3 (f : list Z) : Prop := key_frame f /\ bit f b_pairwise /\ bit f b_ack /\ bit f b_mic /\ bit f b_install /\ bit f b_encrypted.
Definition is_group1 (f : list Z) : Prop := key_frame f /\ ~ bit f b_pairwise /\ bit f b_ack /\ bit f b_mic /\ bit f b_secure /\ bit f b_encrypted.

(** Elements (type, length, value) in decrypted key data. *)
Inductive elem (p : list Z) : Z -> Prop :=
| elem0 : elem p 0
| elem_next i : elem p i -> i + 2 <= zlen p -> i + 2 + zget p (i + 1) <= zlen p -> elem p (i + 2 + zget p (i + 1)).
Definition whole (p : list Z) (i : Z) : Prop := elem p i /\ i + 2 <= zlen p /\ i + 2 + zget p (i + 1) <= zlen p.
Definition is_gtk (p : list Z) (i : Z) : Prop := whole p i /\ zget p i = 221 /\ 6 <= zget p (i + 1) /\ part p (i + 2) 4 = [0; 15; 172; 1].
Definition is_rsn (p : list Z) (i : Z) : Prop := whole p i /\ zget p i = 48.
(** The group key carried: that of the last GTK element. *)
Definition carries_gtk (p : list Z) (idx : Z) (key : list Z) : Prop :=
  exists i, is_gtk p i /\ idx = zget p (i + 6) mod 4 /\ key = part p (i + 8) (zget p (i + 1) - 6) /\ 1 <= zlen key <= 32 /\
            forall j, is_gtk p j -> j <= i.
(** Every RSN element is the one the access point advertised, and there is one. *)
Definition rsn_confirmed (p ie : list Z) : Prop :=
  (exists i, is_rsn p i) /\ forall i, is_rsn p i -> part p i (zget p (i + 1) + 2) = ie.

(** The key data of a message, decrypted with the KEK, carries this group key. *)
Definition unwraps (c : crypto) (kek f p : list Z) : Prop := cr_unwrap c kek (key_data f) = Some p.

(** The primitives have the sizes of their C counterparts. *)
Definition crypto_ok (c : crypto) : Prop :=
  (forall b k f m, cr_mic c b k f = Some m -> zlen m = 16 /\ Forall byte m) /\
  (forall k d p, cr_unwrap c k d = Some p -> zlen p = zlen d - 8 /\ Forall byte p).
Definition env_ok (e : env) : Prop :=
  (forall n, e_snonce e = Some n -> zlen n = 32 /\ Forall byte n) /\ (forall m, e_msk e = Some m -> zlen m = 64) /\ Forall eop_ok (e_tls e) /\
  (forall p i, e_sae_derive e = Some (p, i) -> zlen i = 16 /\ Forall byte i) /\ 0 <= e_sae_kck e.
Definition config_ok (g : config) : Prop := Forall byte (c_ident g) /\ Forall byte (c_apie g).
Definition sop_ok (o : sop) : Prop :=
  match o with
  | SInit g => config_ok g
  | SKick _ e | STick _ e => env_ok e
  | SRx f _ e => Forall byte f /\ env_ok e
  | SAuth f e => Forall byte f /\ env_ok e
  | SDeinit | SInstallPmk _ | SReconnect | SClear => True
  end.

(** The history of a context: it starts zeroed. *)
Definition history (c : crypto) (t : list entry) : Prop := exists os, Forall sop_ok os /\ srun c s_zero os = Some t.
Definition current (t : list entry) : supp := match rev t with [] => s_zero | en :: _ => t_after en end.

(** A nonce was drawn in this call. *)
Definition draws (en : entry) : Prop := exists n, In (ODraw n) (t_out en).
Definition installs (en : entry) (pairwise : bool) (idx : Z) (key : list Z) : Prop := exists ok, In (OInstall pairwise idx key ok) (t_out en).
Definition installed (en : entry) (pairwise : bool) (idx : Z) (key : list Z) : Prop := In (OInstall pairwise idx key true) (t_out en).

(** The call accepted message 1 [f]: it drew [sn] and derived [p] from the PMK. *)
Definition accepts_m1 (c : crypto) (en : entry) (f sn : list Z) (p : ptk_t) : Prop :=
  (exists now e, t_op en = SRx f now e) /\ is_m1 f /\ In (ODraw sn) (t_out en) /\ (forall b i k r, ~ In (OInstall b i k r) (t_out en)) /\
  let x := x_f (t_after en) in
  right_version (f_mode x) f /\
  cr_ptk c (cmac_of (f_mode x)) (x_pmk (t_after en)) (f_ap x) (f_sta x) (nonce f) sn = Some p.
(** Message 3 [f] is good for the handshake begun by message 1 [f1]. *)
Definition good_m3 (c : crypto) (x : fixed) (p : ptk_t) (f1 f : list Z) (idx : Z) (gtk : list Z) : Prop :=
  is_m3 f /\ right_version (f_mode x) f /\ nonce f = nonce f1 /\ counter f1 < counter f /\ mic_valid c (cmac_of (f_mode x)) (p_kck p) f /\
  exists plain, unwraps c (p_kek p) f plain /\ rsn_confirmed plain (f_apie x) /\ carries_gtk plain idx gtk.
(** Group message 1 [f] is good under [p]. *)
Definition good_group (c : crypto) (x : fixed) (p : ptk_t) (f : list Z) (idx : Z) (gtk : list Z) : Prop :=
  is_group1 f /\ right_version (f_mode x) f /\ mic_valid c (cmac_of (f_mode x)) (p_kck p) f /\ exists plain, unwraps c (p_kek p) f plain /\ carries_gtk plain idx gtk.
Definition connected_states (en : entry) : Prop := x_state (t_after en) = M3Wait \/ x_state (t_after en) = Auth.

(** An EAPOL-Key message with its MIC. *)
Definition key_msg (info klen : Z) (replay nonce data mic : list Z) : list Z :=
  [2; 3; (95 + zlen data) / 256; (95 + zlen data) mod 256; 2; info / 256; info mod 256; klen / 256; klen mod 256] ++ replay ++ nonce ++
  repeat 0 32 ++ mic ++ [zlen data / 256; zlen data mod 256] ++ data.
(** Key information: version, then the bits set. *)
Definition ver (m : amode) : Z := if cmac_of m then 0 else 2.
Definition m2_info (m : amode) : Z := ver m + 2 ^ b_pairwise + 2 ^ b_mic.
Definition m4_info (m : amode) : Z := ver m + 2 ^ b_pairwise + 2 ^ b_mic + 2 ^ b_secure.
Definition g2_info (m : amode) : Z := ver m + 2 ^ b_mic + 2 ^ b_secure.

(** The configuration in force: that of the last successful init. *)
Definition last_init (t : list entry) (g : config) (mid : list entry) : Prop :=
  exists a en, t = a ++ en :: mid /\ t_op en = SInit g /\ t_ok en = true /\
  Forall (fun x => match t_op x with SInit _ => t_ok x = false | SDeinit => False | _ => True end) mid.
(** Where the pairwise master key may come from. *)
Definition pmk_source (c : crypto) (g : config) (mid : list entry) (pmk : list Z) : Prop :=
  match c_mode g with
  | PSK => match c_psk g with Some p => pmk = p | None => exists pw, c_pass g = Some pw /\ cr_pmk c pw (c_ssid g) = Some pmk end
  | EAPTLS => exists m1 m2 x1 x2 f1 n1 e1 f2 n2 e2 msk, mid = m1 ++ x1 :: m2 /\ t_op x1 = SRx f1 n1 e1 /\ e_tls_ok e1 = true /\ e_tls_done e1 = true /\
              In x2 m2 /\ t_op x2 = SRx f2 n2 e2 /\ e_msk e2 = Some msk /\ pmk = firstn 32 msk
  | SAE => (exists x, In x mid /\ t_op x = SInstallPmk pmk /\ t_ok x = true) \/
           (exists m1 m2 x1 x2 f1 e1 f2 e2 id, mid = m1 ++ x1 :: m2 /\ t_op x1 = SAuth f1 e1 /\ e_sae_derive e1 = Some (pmk, id) /\
              In x2 m2 /\ t_op x2 = SAuth f2 e2 /\ e_sae_verify e2 = true /\ t_ok x2 = true)
  end.
