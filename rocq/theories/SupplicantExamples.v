(** Runs of the supplicant model: the hypotheses of C34, C58, C59 are met; claims that
    the code does not meet. *)
From Verif Require Import Base HttpUrl EapTls EapTlsProps Eapol EapolProps ForwardSpec ForwardProofs ForwardProps Supplicant SupplicantSpec SupplicantProofs SupplicantInv SupplicantHist SupplicantTrack SupplicantProps SupplicantTime.

(** Sample primitives: a MIC equal to the KCK, key wrap that prepends 8 bytes. *)
Definition fit (n : nat) (l : list Z) : list Z := map u8 (firstn n (l ++ repeat 0 n)).
Definition toy : crypto := mkCr
  (fun _ pmk _ _ an sn => Some (mkPtk (fit 16 an) (fit 16 sn) (fit 16 pmk)))
  (fun _ k _ => Some (fit 16 k))
  (fun _ d => if 8 <=? zlen d then Some (map u8 (skipn 8 d)) else None)
  (fun pw ssid => Some (fit 32 (pw ++ ssid)))
  (fun x => Some x).
Lemma u8_bytes l : Forall byte (map u8 l).
Proof. apply Forall_forall. intros x H. apply in_map_iff in H. destruct H as (y & <- & _). unfold byte, u8. apply Z.mod_pos_bound. lia. Qed.
Lemma toy_ok : crypto_ok toy.
Proof.
  split.
  - intros b k f m H. change (Some (fit 16 k) = Some m) in H. injection H as <-. split; [|apply u8_bytes]. unfold fit, zlen. rewrite map_length, firstn_length, app_length, repeat_length. lia.
  - intros k d p H. change ((if 8 <=? zlen d then Some (map u8 (skipn 8 d)) else None) = Some p) in H. destruct (Z.leb_spec 8 (zlen d)); [|discriminate]. assert (HP : p = map u8 (skipn 8 d)) by congruence. rewrite HP. split; [|apply u8_bytes]. unfold zlen in *. rewrite map_length, skipn_length. lia.
Qed.
Lemma toy_hash : hash_ok toy.
Proof. intros a b h H1 H2. cbn in *. congruence. Qed.

Definition env1 : env := mkEnv (Some (repeat 9 32)) true true true [] true true (Some (repeat 5 64)) true true (Some (repeat 4 32, repeat 3 16)) true 32 true.
Definition env_nosend : env := mkEnv (Some (repeat 9 32)) false true true [] true true (Some (repeat 5 64)) true true (Some (repeat 4 32, repeat 3 16)) true 32 true.
Definition env_noinst : env := mkEnv (Some (repeat 9 32)) true true false [] true true (Some (repeat 5 64)) true true (Some (repeat 4 32, repeat 3 16)) true 32 true.
Lemma env1_ok : env_ok env1 /\ env_ok env_nosend /\ env_ok env_noinst.
Proof.
  assert (G : forall e, e_snonce e = Some (repeat 9 32) -> e_msk e = Some (repeat 5 64) -> e_tls e = [] -> e_sae_derive e = Some (repeat 4 32, repeat 3 16) -> e_sae_kck e = 32 -> env_ok e).
  { intros e A B D E F. unfold env_ok. rewrite A, B, D, E, F. split; [intros n H; injection H as <-; split; [reflexivity|apply allbytes_ok; reflexivity]|]. split; [intros m H; injection H as <-; reflexivity|]. split; [constructor|].
    split; [intros p i H; injection H as _ <-; split; [reflexivity|apply allbytes_ok; reflexivity]|lia]. }
  split; [|split]; apply G; reflexivity.
Qed.
Definition cfg (m : amode) (inst : bool) : config :=
  mkCfg m [65; 66] (Some (repeat 112 10)) (match m with PSK => Some (repeat 7 32) | _ => None end) [117] true true true false (repeat 1 6) (repeat 2 6) false false [] true inst true.
Definition cfg_pass : config := mkCfg PSK [65; 66] (Some (repeat 112 10)) None [117] true true true false (repeat 1 6) (repeat 2 6) false false [] true true true.

Definition anonce : list Z := repeat 8 32.
Definition ctr (n : Z) : list Z := [0;0;0;0;0;0;0;n].
Definition msg1 (v n : Z) := key_msg (v + 8 + 128) 16 (ctr n) anonce [] (repeat 0 16).
Definition rsn (akm : Z) : list Z := [48; 20; 1; 0; 0; 15; 172; 4; 1; 0; 0; 15; 172; 4; 1; 0; 0; 15; 172; akm; 0; 0].
Definition gtk_kde (k : list Z) : list Z := [221; 6 + zlen k; 0; 15; 172; 1; 1; 0] ++ k.
Definition gtk16 : list Z := repeat 6 16.
Definition msg3 (v n akm : Z) (bits : Z) := key_msg (v + 8 + 64 + 128 + 256 + 4096 + bits) 16 (ctr n) anonce (repeat 0 8 ++ rsn akm ++ gtk_kde gtk16 ++ [221; 0]) (repeat 8 16).
Definition grp1 (v n : Z) (k : list Z) (pad : nat) := key_msg (v + 128 + 256 + 512 + 4096) 16 (ctr n) (repeat 0 32) (repeat 0 8 ++ gtk_kde k ++ 221 :: repeat 0 pad) (repeat 8 16).
Definition start (m : amode) (inst : bool) := [SInit (cfg m inst); SKick 1 env1].
Definition session := start PSK true ++ [SRx (msg1 2 1) 10 env1; SRx (msg3 2 2 2 512) 20 env1].
Definition view (os : list sop) : option (list (list sout * sstate * bool)) := option_map (map (fun en => (t_out en, x_state (t_after en), t_ok en))) (srun toy s_zero os).
Definition tail_of (n : nat) (os : list sop) := option_map (skipn n) (view os).
Fixpoint all_ok (os : list sop) : bool :=
  match os with
  | [] => true
  | o :: os => (match o with SRx f _ _ | SAuth f _ => allbytes f | SInit g => allbytes (c_ident g) && allbytes (c_apie g) | _ => true end) && all_ok os
  end.
Definition envs (o : sop) : Prop := match o with SKick _ e | STick _ e | SRx _ _ e | SAuth _ e => e = env1 \/ e = env_nosend \/ e = env_noinst | _ => True end.
Lemma ops_ok os : all_ok os = true -> Forall envs os -> Forall sop_ok os.
Proof.
  destruct env1_ok as (E1 & E2 & E3). assert (EO : forall e, e = env1 \/ e = env_nosend \/ e = env_noinst -> env_ok e) by (intros e [-> |[-> | ->]]; assumption).
  intros H F. induction F as [|o os HE HF IH]; [constructor|]. cbn [all_ok] in H. apply andb_prop in H. destruct H as [H1 H2]. constructor; [|auto].
  destruct o; cbn in *; auto; try (split; [apply allbytes_ok; exact H1|auto]). apply andb_prop in H1. destruct H1. split; apply allbytes_ok; assumption.
Qed.
Ltac ops := apply ops_ok; [vm_compute; reflexivity|repeat (apply Forall_cons; [cbn; auto|]); apply Forall_nil].

(** A whole session meets the hypotheses: message 1 answered, keys installed, a group
    rekey, and a tick after the deadline. *)
Definition full := session ++ [SRx (grp1 2 3 (repeat 7 16) 7) 30 env1; STick 20000 env1].
Example wpa_session : Forall sop_ok full /\
  option_map (map (fun x => match x with (o, st, ok) => (zlen o, st, ok) end)) (view full) =
    Some [(0, Idle, true); (0, M1Wait, true); (2, M3Wait, true); (3, Auth, true); (2, Auth, true); (0, Auth, true)] /\
  option_map (fun t => filter (fun x => match x with OInstall _ _ _ _ => true | _ => false end) (flat_map t_out t)) (srun toy s_zero full) =
    Some [OInstall true 0 (repeat 7 16) true; OInstall false 1 gtk16 true; OInstall false 1 (repeat 7 16) true].
Proof. split; [unfold full, session, start; cbn [app]; ops|]. split; vm_compute; reflexivity. Qed.
(** The hypotheses of wpa_handshake_completes and of the others hold in it. *)
Example wpa_keydata : keydata_ok toy (repeat 9 16) (msg3 2 2 2 512) (rsn 2) true 1 gtk16 /\ is_m1 (msg1 2 1) /\ is_m3 (msg3 2 2 2 512) /\ is_group1 (grp1 2 3 (repeat 7 16) 7) /\
  counter (msg1 2 1) < counter (msg3 2 2 2 512) /\ mic_valid toy false (repeat 8 16) (msg3 2 2 2 512) /\ right_version PSK (msg3 2 2 2 512).
Proof.
  assert (KF : forall f, (99 <=? zlen f) && (zget f 0 =? 2) && (zget f 1 =? 3) && (95 <=? word f 2) && (4 + word f 2 <=? zlen f) && (zget f 4 =? 2) && (95 + word f 97 <=? word f 2) = true -> key_frame f) by (intros f H; unfold key_frame; lia).
  set (pl := rsn 2 ++ gtk_kde gtk16 ++ [221; 0]).
  assert (WH : forall i, whole pl i -> i = 0 \/ i = 22 \/ i = 46).
  { intros i (E & L1 & L2). assert (EL : forall j, elem pl j -> j = 0 \/ j = 22 \/ j = 46 \/ j = 48).
    { induction 1 as [|j E1 IH A B]; [auto|]. destruct IH as [-> |[-> |[-> | ->]]]; vm_compute; auto. vm_compute in A. exfalso. apply A. reflexivity. }
    destruct (EL i E) as [-> |[-> |[-> | ->]]]; auto. vm_compute in L1. exfalso. apply L1. reflexivity. }
  assert (E0 : elem pl 0) by constructor. assert (E22 : elem pl 22) by (apply (elem_next pl 0 E0); vm_compute; discriminate). assert (E46 : elem pl 46) by (apply (elem_next pl 22 E22); vm_compute; discriminate).
  assert (G22 : is_gtk pl 22). { split; [split; [exact E22|split; vm_compute; discriminate]|]. split; [reflexivity|]. split; [vm_compute; discriminate|reflexivity]. }
  assert (GU : forall j, is_gtk pl j -> j = 22). { intros j (W & T & L & _). destruct (WH j W) as [-> |[-> | ->]]; [vm_compute in T; discriminate|reflexivity|vm_compute in L; exfalso; apply L; reflexivity]. }
  split.
  - split; [split; vm_compute; discriminate|]. split; [reflexivity|]. split; [reflexivity|]. exists pl. split; [vm_compute; reflexivity|]. split.
    + exists 22. split; [exact G22|]. split; [reflexivity|]. split; [vm_compute; reflexivity|]. split; [split; vm_compute; discriminate|]. intros j HJ. rewrite (GU j HJ). lia.
    + split; [intros j HJ; rewrite (GU j HJ); split; vm_compute; discriminate|]. intros _. split; [exists 0; split; [split; [exact E0|split; vm_compute; discriminate]|reflexivity]|].
      intros i (W & T). destruct (WH i W) as [-> |[-> | ->]]; [vm_compute; reflexivity|vm_compute in T; discriminate|vm_compute in T; discriminate].
  - split; [split; [apply KF; vm_compute; reflexivity|]; split; [reflexivity|]; split; [reflexivity|vm_compute; discriminate]|].
    split; [split; [apply KF; vm_compute; reflexivity|]; repeat split|]. split; [split; [apply KF; vm_compute; reflexivity|]; split; [vm_compute; discriminate|repeat split]|].
    split; [vm_compute; reflexivity|]. split; vm_compute; reflexivity.
Qed.

(** ** What does not hold *)
(** "A frame that does not authenticate changes nothing": any well-formed EAPOL-Key
    frame of the right version that is neither message 1 nor a valid message 3 ends
    the handshake (here: a wrong MIC). *)
Definition forged := key_msg (2 + 8 + 64 + 128 + 256 + 4096) 16 (ctr 2) anonce (repeat 0 56) (repeat 1 16).
Theorem wpa_forged_key_frame_refuted : exists os, Forall sop_ok (os ++ [SRx forged 15 env1]) /\ tail_of 2 (os ++ [SRx forged 15 env1]) = Some [([ODraw (repeat 9 32); OSend (key_msg 266 16 (ctr 1) (repeat 9 32) (rsn 2) (repeat 8 16))], M3Wait, true); ([], Failed, false)].
Proof. exists (start PSK true ++ [SRx (msg1 2 1) 10 env1]). split; [cbn [app start]; ops|vm_compute; reflexivity]. Qed.
(** "An authenticated session survives forged EAP frames": an EAP Failure, Success or
    Request ends it, even with a PSK. *)
Definition eap_failure := [2; 0; 0; 4; 4; 1; 0; 4].
Definition eap_req := [2; 0; 0; 5; 1; 1; 0; 5; 1].
Theorem wpa_forged_eap_refuted : Forall sop_ok (session ++ [SRx eap_failure 30 env1; SRx eap_req 31 env1]) /\
  tail_of 4 (session ++ [SRx eap_failure 30 env1]) = Some [([], Failed, false)] /\ tail_of 4 (session ++ [SRx eap_req 30 env1]) = Some [([], Failed, false)].
Proof. split; [unfold session, start; cbn [app]; ops|]. split; vm_compute; reflexivity. Qed.
(** "Message 2 carries the counter of the message 1 it answers": a retransmitted
    message 1 with a new counter is answered with the old one (an authenticator must
    discard it). *)
Theorem wpa_m1_retransmit_counter_refuted : tail_of 3 (start PSK true ++ [SRx (msg1 2 1) 10 env1; SRx (msg1 2 2) 11 env1]) =
  Some [([OSend (key_msg 266 16 (ctr 1) (repeat 9 32) (rsn 2) (repeat 8 16))], M3Wait, true)].
Proof. vm_compute. reflexivity. Qed.
(** "A lost message 4 is sent again": message 3 repeated with a new counter is ignored. *)
Theorem wpa_lost_m4_refuted : Forall sop_ok (session ++ [SRx (msg3 2 3 2 512) 30 env1]) /\ tail_of 4 (session ++ [SRx (msg3 2 3 2 512) 30 env1]) = Some [([], Auth, false)].
Proof. split; [unfold session, start; cbn [app]; ops|vm_compute; reflexivity]. Qed.
(** "A group key in use is not installed again": the same GTK in a newer group message
    is handed to the driver again. *)
Theorem wpa_same_gtk_refuted : exists r, tail_of 4 (session ++ [SRx (grp1 2 3 gtk16 7) 30 env1]) = Some [(OInstall false 1 gtk16 true :: r, Auth, true)].
Proof. eexists. vm_compute. reflexivity. Qed.
(** "A message is processed once": if the driver refuses the group key, the same frame
    is processed again. *)
Theorem wpa_refused_group_replay_refuted : exists r, tail_of 4 (session ++ [SRx (grp1 2 3 gtk16 7) 30 env_noinst; SRx (grp1 2 3 gtk16 7) 31 env1]) =
  Some [([OInstall false 1 gtk16 false], Auth, false); (OInstall false 1 gtk16 true :: r, Auth, true)].
Proof. eexists. vm_compute. reflexivity. Qed.
(** "Message 3 must be marked secure" (12.7.6.4): accepted without the Secure bit. *)
Theorem wpa_m3_insecure_refuted : exists o, tail_of 3 (start PSK true ++ [SRx (msg1 2 1) 10 env1; SRx (msg3 2 2 2 0) 20 env1]) = Some [(o, Auth, true)].
Proof. eexists. vm_compute. reflexivity. Qed.
(** "Keys are in the driver only if the session is authenticated": message 4 could not
    be sent, the state is FAILED, the keys stay installed. *)
Theorem wpa_keys_after_failure_refuted : exists m4, tail_of 3 (start PSK true ++ [SRx (msg1 2 1) 10 env1; SRx (msg3 2 2 2 512) 20 env_nosend]) =
  Some [([OInstall true 0 (repeat 7 16) true; OInstall false 1 gtk16 true; OSend m4], Failed, false)].
Proof. eexists. vm_compute. reflexivity. Qed.
(** "Authenticated means keys are installed": without an install_key callback the
    state is AUTHENTICATED and no key was handed over. *)
Theorem wpa_no_install_hook_refuted : exists m4, tail_of 3 (start PSK false ++ [SRx (msg1 2 1) 10 env1; SRx (msg3 2 2 2 512) 20 env1]) = Some [([OSend m4], Auth, true)].
Proof. eexists. vm_compute. reflexivity. Qed.
(** "A group key has the length of the cipher": a one-byte GTK is installed. *)
Theorem wpa_short_gtk_refuted : exists r, tail_of 4 (session ++ [SRx (grp1 2 3 [6] 14) 30 env1]) = Some [(OInstall false 1 [6] true :: r, Auth, true)].
Proof. eexists. vm_compute. reflexivity. Qed.

(** "The PSK master key is PBKDF2 of passphrase and SSID": pmksa_reconnect in a PSK
    configuration takes over the PMK of an SAE session, and that session's success
    caches it under the passphrase: the next init with this passphrase uses it. *)
Definition sae_auth (q : Z) : list Z := [3; 0; q; 0; 0; 0] ++ repeat 0 40.
Definition sae_session := [SInit (cfg SAE true); SKick 1 env1; SAuth (sae_auth 1) env1; SAuth (sae_auth 2) env1; SRx (msg1 0 1) 10 env1; SRx (msg3 0 2 8 512) 20 env1].
Definition poison := sae_session ++ [SInit cfg_pass; SReconnect; SKick 30 env1; SRx (msg1 2 1) 31 env1; SRx (msg3 2 2 2 512) 32 env1; SInit cfg_pass].
Theorem wpa_reconnect_any_mode_refuted : Forall sop_ok poison /\ exists t en, srun toy s_zero poison = Some (t ++ [en]) /\ t_op en = SInit cfg_pass /\ t_ok en = true /\
  x_pmk (t_after en) = repeat 4 32 /\ cr_pmk toy (repeat 112 10) [65; 66] <> Some (repeat 4 32).
Proof.
  split; [unfold poison, sae_session; cbn [app]; ops|].
  destruct (srun toy s_zero poison) as [l|] eqn:E; [|vm_compute in E; discriminate].
  assert (Q : option_map (fun l => match rev l with en :: r => Some (t_op en, t_ok en, x_pmk (t_after en)) | [] => None end) (srun toy s_zero poison) = Some (Some (SInit cfg_pass, true, repeat 4 32))) by (vm_compute; reflexivity).
  rewrite E in Q. cbn [option_map] in Q. destruct (rev l) as [|en r] eqn:ER; [discriminate|]. injection Q as Q1 Q2 Q3. exists (rev r), en.
  split; [rewrite <- (rev_involutive l), ER; reflexivity|]. split; [exact Q1|]. split; [exact Q2|]. split; [exact Q3|]. vm_compute. discriminate.
Qed.
Print Assumptions wpa_reconnect_any_mode_refuted.
