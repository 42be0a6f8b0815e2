(** Every call of the supplicant: totality, invariant, classification of its effects. *)
From Verif Require Import Base ListUtil HttpUrl EapTls EapTlsProps Eapol EapolProps ForwardSpec ForwardProofs ForwardStep ForwardProps Supplicant SupplicantSpec SupplicantProofs.
Local Ltac Zify.zify_post_hook ::= idtac.

Definition is_send (x : sout) : Prop := match x with OSend _ | OAuth _ => True | _ => False end.
Definition live (s : supp) : Prop := x_state s = M3Wait \/ x_state s = Auth.

Record SInv (s : supp) : Prop := mkSI {
  i_io : EInv (x_io s);
  i_rep : zlen (h_replay (x_h s)) = 8 /\ Forall byte (h_replay (x_h s));
  i_sn : zlen (h_snonce (x_h s)) = 32;
  i_own : zlen (x_own s) <= 64 /\ Forall byte (x_own s);
  i_cache : forall q i, x_cache s = Some q -> q_pmkid q = Some i -> zlen i = 16 /\ Forall byte i;
  i_sae : zlen (snd (x_sae s)) = 16 /\ Forall byte (snd (x_sae s));
  i_flags : live s -> h_have_ptk (x_h s) = true /\ h_have_replay (x_h s) = true;
  i_m2 : 0 <= x_m2_left s <= 3 }.

(** The conditions of message 3 and of group message 1 in terms of the context. *)
Definition m3_now (c : crypto) (s : supp) (f : list Z) (idx : Z) (key : list Z) : Prop :=
  is_m3 f /\ right_version (f_mode (x_f s)) f /\ nonce f = h_anonce (x_h s) /\ num (h_replay (x_h s)) < counter f /\
  mic_valid c (is_cmac s) (p_kck (h_ptk (x_h s))) f /\
  exists p, unwraps c (p_kek (h_ptk (x_h s))) f p /\ rsn_confirmed p (f_apie (x_f s)) /\ carries_gtk p idx key.
Definition grp_now (c : crypto) (s : supp) (f : list Z) (idx : Z) (key : list Z) : Prop :=
  is_group1 f /\ right_version (f_mode (x_f s)) f /\ num (h_replay (x_h s)) < counter f /\
  mic_valid c (is_cmac s) (p_kck (h_ptk (x_h s))) f /\
  exists p, unwraps c (p_kek (h_ptk (x_h s))) f p /\ carries_gtk p idx key.

Inductive kind (c : crypto) (s : supp) : sop -> supp -> list sout -> Prop :=
| k_quiet o s' out : Forall is_send out -> (live s' -> x_f s' = x_f s /\ x_h s' = x_h s /\ x_state s' = x_state s) -> kind c s o s' out
| k_m1 f now e sn p s' out : x_state s = M1Wait -> is_m1 f -> right_version (f_mode (x_f s)) f -> e_snonce e = Some sn ->
    cr_ptk c (is_cmac s) (x_pmk s) (f_ap (x_f s)) (f_sta (x_f s)) (nonce f) sn = Some p -> Forall is_send out ->
    x_f s' = x_f s -> x_pmk s' = x_pmk s -> x_h s' = mkH p true (nonce f) sn (part f 9 8) true -> (x_state s' = M3Wait \/ x_state s' = Failed) ->
    kind c s (SRx f now e) s' (ODraw sn :: out)
| k_m1_bad o s' sn : x_state s' = Failed -> kind c s o s' [ODraw sn]
| k_m3 f now e idx key s' ins out : x_state s = M3Wait -> m3_now c s f idx key ->
    (ins = [] \/ (exists r, ins = [OInstall true 0 (p_tk (h_ptk (x_h s))) r]) \/ (exists r, ins = [OInstall true 0 (p_tk (h_ptk (x_h s))) true; OInstall false idx key r])) ->
    Forall is_send out -> (x_state s' = Auth \/ x_state s' = Failed) -> x_f s' = x_f s -> h_ptk (x_h s') = h_ptk (x_h s) -> h_anonce (x_h s') = h_anonce (x_h s) ->
    (x_state s' = Auth -> h_replay (x_h s') = part f 9 8) -> kind c s (SRx f now e) s' (ins ++ out)
| k_grp f now e idx key s' ins out : x_state s = Auth -> x_state s' = Auth -> grp_now c s f idx key -> Forall is_send out ->
    ((ins = [] \/ ins = [OInstall false idx key true]) /\ h_replay (x_h s') = part f 9 8 \/ ins = [OInstall false idx key false] /\ h_replay (x_h s') = h_replay (x_h s)) ->
    x_f s' = x_f s -> h_ptk (x_h s') = h_ptk (x_h s) -> h_anonce (x_h s') = h_anonce (x_h s) -> kind c s (SRx f now e) s' (ins ++ out).

Ltac sp := repeat (match goal with |- _ /\ _ => split end); auto; try (let HX := fresh in intros [HX|HX]; discriminate HX).
Ltac si := constructor; cbn; solve [auto | intros [|]; discriminate | lia].
Ltac silive := let H := fresh in intros [H|H]; cbn in H; congruence.

(** ** Sending *)
Lemma send_key_ok c e s info klen replay nn data : crypto_ok c -> 0 <= info < 65536 -> 0 <= klen < 65536 -> zlen replay = 8 -> zlen nn = 32 -> zlen data <= 64 ->
  exists o ok, send_key c e s info klen replay nn data = Some (o, ok) /\ Forall is_send o.
Proof.
  intros. destruct (send_spec_key c e s info klen replay nn data) as (o & ok & E & P); try assumption. exists o, ok. split; [exact E|].
  destruct (cr_mic _ _ _ _); [destruct (f_send _)|]; destruct P as [-> _]; repeat constructor.
Qed.
Lemma info_m2 s : 0 <= Z.lor (Z.lor (desc_ver s) 8) 256 < 65536.
Proof. unfold desc_ver. destruct (is_cmac s); vm_compute; split; congruence. Qed.
Lemma info_m4 s : 0 <= Z.lor (Z.lor (Z.lor (desc_ver s) 8) 256) 512 < 65536.
Proof. unfold desc_ver. destruct (is_cmac s); vm_compute; split; congruence. Qed.
Lemma info_g2 s : 0 <= Z.lor (Z.lor (desc_ver s) 256) 512 < 65536.
Proof. unfold desc_ver. destruct (is_cmac s); vm_compute; split; congruence. Qed.
Lemma send_m2_ok c e s : crypto_ok c -> zlen (h_replay (x_h s)) = 8 -> zlen (h_snonce (x_h s)) = 32 -> zlen (x_own s) <= 64 ->
  exists o ok, send_m2 c e s = Some (o, ok) /\ Forall is_send o.
Proof. intros. apply send_key_ok; try assumption; [apply info_m2|lia]. Qed.
Lemma send_packet_ok e s ty p : exists o ok, send_packet e s ty p = Some (o, ok) /\ Forall is_send o.
Proof.
  unfold send_packet. destruct (Z.ltb_spec 1060 (zlen p + 4)) as [Q|Q]; [eexists _, _; split; [reflexivity|constructor]|].
  rewrite eapol_eap_build_exact. rewrite zlen_repeat. pose proof (zlen_nonneg p).
  destruct (Z.leb_spec (zlen p) 65535); [|lia]. destruct (Z.leb_spec (4 + zlen p) (Z.of_nat 1060)); [|lia]. cbn [andb obind].
  destruct (f_send (x_f s)); cbn [negb]; [|eexists _, _; split; [reflexivity|constructor]].
  rewrite mread_pre. 2: { unfold eapol_bytes. rewrite zlen_app. reflexivity. }
  cbn [obind]. eexists _, _. split; [reflexivity|]. repeat constructor.
Qed.
Lemma send_identity_ok e s id : exists o ok, send_identity e s id = Some (o, ok) /\ Forall is_send o.
Proof.
  unfold send_identity. rewrite eap_identity_exact. rewrite zlen_repeat. destruct ((5 + zlen (f_ident (x_f s)) <=? Z.of_nat 69) && _) eqn:Q; cbn [obind].
  - rewrite mread_pre. 2: { unfold identity_bytes. rewrite zlen_app. reflexivity. }
    cbn [obind]. apply send_packet_ok.
  - eexists _, _. split; [reflexivity|constructor].
Qed.

(** ** EAPOL-Key *)
Lemma frame_counter f : Forall byte f -> key_frame f -> zlen (part f 9 8) = 8 /\ Forall byte (part f 9 8) /\ zlen (part f 17 32) = 32.
Proof. intros HB (F1 & _). split; [apply zlen_part; lia|]. split; [apply part_bytes; exact HB|apply zlen_part; lia]. Qed.
Lemma shape_m1 f : key_frame f -> key_info_has (word f 5) (8 + 128) 256 = true -> is_m1 f.
Proof. intros KF H. apply has_m1 in H. destruct H as (A & B & D). split; [exact KF|]. split; [exact A|]. split; [exact B|]. unfold bit, b_mic. congruence. Qed.
Lemma key_frame_dec f : {key_frame f} + {~ key_frame f}.
Proof.
  unfold key_frame. destruct (Z_le_dec 99 (zlen f)); [|right; tauto]. destruct (Z.eq_dec (zget f 1) 3); [|right; tauto].
  destruct (Z_le_dec 95 (word f 2)); [|right; tauto]. destruct (Z_le_dec (4 + word f 2) (zlen f)); [|right; tauto]. destruct (Z.eq_dec (zget f 4) 2); [|right; tauto].
  destruct (Z_le_dec (95 + word f 97) (word f 2)); [|right; tauto]. destruct (Z.eq_dec (zget f 0) 1); [left; tauto|]. destruct (Z.eq_dec (zget f 0) 2); [left; tauto|right; tauto].
Qed.
Lemma right_ver s f : Z.land (word f 5) 7 = desc_ver s -> right_version (f_mode (x_f s)) f.
Proof. rewrite ver_mod. unfold right_version, version, desc_ver, is_cmac, cmac_of. intros ->. destruct (f_mode (x_f s)); reflexivity. Qed.
Lemma cmac_is s : cmac_of (f_mode (x_f s)) = is_cmac s.
Proof. unfold cmac_of, is_cmac. destruct (f_mode (x_f s)); reflexivity. Qed.

Definition fail_on (r : hres) : hres := let '(s, o, ok) := r in (if ok : bool then s else set_state s Failed, o, ok).

Lemma failed_inv s : SInv s -> SInv (set_state s Failed).
Proof. intros []. constructor; cbn; auto. intros [H|H]; discriminate. Qed.
Lemma handle_m1_ok c e s f k now : crypto_ok c -> SInv s -> env_ok e -> Forall byte f -> key_frame f -> key_fields f k -> right_version (f_mode (x_f s)) f -> x_state s = M1Wait ->
  exists s' out ok, handle_m1 c e s k now = Some (s', out, ok) /\ SInv (if ok then s' else set_state s' Failed) /\ kind c s (SRx f now e) (if ok then s' else set_state s' Failed) out.
Proof.
  intros CO SI EO HB KF KS RV ST. destruct KS as (K1 & _ & K3 & _ & K5 & K6 & _ & _). destruct (frame_counter f HB KF) as (C1 & C2 & C3). pose proof SI as []. unfold handle_m1. rewrite K3.
  destruct (key_info_has (word f 5) (8 + 128) 256) eqn:HM; cbn [negb].
  2: { eexists _, _, false. split; [reflexivity|]. split; [apply failed_inv; exact SI|]. apply k_quiet; [constructor|silive]. }
  apply (shape_m1 f KF) in HM. cbv zeta.
  assert (FB : forall h, zlen (h_replay h) = 8 /\ Forall byte (h_replay h) -> zlen (h_snonce h) = 32 -> SInv (set_state (set_h s h) Failed)).
  { intros h A B. constructor; cbn; auto. intros [H|H]; discriminate. }
  destruct (e_snonce e) as [sn|] eqn:ES.
  2: { eexists _, _, false. split; [reflexivity|]. split; [apply FB; cbn; auto|]. apply k_quiet; [constructor|silive]. }
  destruct EO as (E1 & _). destruct (E1 sn ES) as [S1 S2]. cbn [x_h x_pmk x_f set_h]. rewrite K6. change (part f 17 32) with (nonce f).
  unfold is_cmac at 1. cbn [x_f set_h]. fold (is_cmac s).
  destruct (cr_ptk c (is_cmac s) (x_pmk s) (f_ap (x_f s)) (f_sta (x_f s)) (nonce f) sn) as [p|] eqn:EP.
  2: { eexists _, _, false. split; [reflexivity|]. split; [apply (FB (mkH _ _ _ _ _ _)); cbn; auto|]. apply k_m1_bad. reflexivity. }
  rewrite K5. match goal with |- context [send_m2 c e ?x] => set (s1 := x) end.
  destruct (send_m2_ok c e s1) as (o & ok & -> & OS); [exact CO|exact C1|exact S1|apply i_own0|]. cbn [obind].
  destruct ok; cbn [negb]; eexists _, _, _; (split; [reflexivity|]); cbn iota.
  - split; [constructor; cbn; auto; lia|]. eapply k_m1; eauto.
  - split; [apply (FB (mkH _ _ _ _ _ _)); cbn; auto|]. eapply k_m1; eauto.
Qed.
Definition copy_of (f : list Z) (k : kview) : list Z := part f 0 (kv_frame_len k) ++ repeat 0 (Z.to_nat (355 - kv_frame_len k)).
Lemma shape_m3 f : key_frame f -> key_info_has (word f 5) (8 + 128 + 256 + 64) 0 = true -> bit f b_encrypted -> is_m3 f.
Proof. intros KF H E. apply has_m3 in H. destruct H as (A & B & D & G). repeat (split; [assumption|]). exact E. Qed.
Lemma handle_m3_ok c e s f k now : crypto_ok c -> SInv s -> env_ok e -> Forall byte f -> key_frame f -> key_fields f k -> right_version (f_mode (x_f s)) f -> kv_frame_len k <= 355 -> x_state s = M3Wait ->
  exists s' out ok, handle_m3 c e s k (copy_of f k) = Some (s', out, ok) /\ SInv (if ok then s' else set_state s' Failed) /\ kind c s (SRx f now e) (if ok then s' else set_state s' Failed) out.
Proof.
  intros CO SI EO HB KF KS RV L355 ST. pose proof KS as (K1 & _ & K3 & _ & K5 & K6 & _ & _). destruct (frame_counter f HB KF) as (C1 & C2 & C3). pose proof SI as [].
  assert (BAD : exists s' out ok, Some (s, @nil sout, false) = Some (s', out, ok) /\ SInv (if ok : bool then s' else set_state s' Failed) /\ kind c s (SRx f now e) (if ok then s' else set_state s' Failed) out).
  { eexists _, _, false. split; [reflexivity|]. split; [apply failed_inv; exact SI|]. apply k_quiet; [constructor|silive]. }
  unfold handle_m3. rewrite K3. destruct (key_info_has (word f 5) (8 + 128 + 256 + 64) 0) eqn:HM; cbn [negb]; [|exact BAD]. cbv zeta.
  destruct i_flags0 as [HP HR]; [left; exact ST|]. rewrite HR. cbn [andb]. rewrite K5, newer_spec; [|rewrite C1; symmetry; apply i_rep0|exact C2|apply i_rep0].
  destruct (Z.ltb_spec (num (h_replay (x_h s))) (num (part f 9 8))) as [CT|CT]; cbn [negb]; [|exact BAD].
  rewrite K6. destruct (bytes_eqb (part f 17 32) (h_anonce (x_h s))) eqn:NE; cbn [negb]; [|exact BAD]. apply bytes_eqb_eq in NE.
  destruct (verify_spec c s f k (copy_of f k) HB KF KS L355 eq_refl) as (v & -> & VS). cbn [obind]. destruct v; cbn [negb]; [|exact BAD].
  assert (MV : mic_valid c (is_cmac s) (p_kck (h_ptk (x_h s))) f) by (apply VS; reflexivity).
  destruct (parse_data_spec c s f k true CO HB KF KS) as (g & -> & PG & _). cbn [obind]. destruct g as [[idx key]|]; [|exact BAD].
  destruct (PG idx key eq_refl) as (p & EN & UW & CG & RC). specialize (RC eq_refl).
  assert (M3 : m3_now c s f idx key).
  { split; [apply shape_m3; assumption|]. split; [exact RV|]. split; [exact NE|]. split; [exact CT|]. split; [exact MV|]. exists p. auto. }
  set (ins := if f_inst (x_f s) then _ else []).
  assert (INS : ins = [] \/ (exists r, ins = [OInstall true 0 (p_tk (h_ptk (x_h s))) r]) \/ (exists r, ins = [OInstall true 0 (p_tk (h_ptk (x_h s))) true; OInstall false idx key r])).
  { unfold ins. destruct (f_inst (x_f s)); [|auto]. right. destruct (e_inst_p e); cbn [andb]; [|eauto]. destruct (0 <? zlen key); [|eauto]. right. eauto. }
  assert (FB : forall h, zlen (h_replay h) = 8 /\ Forall byte (h_replay h) -> zlen (h_snonce h) = 32 -> SInv (set_state (set_h s h) Failed)).
  { intros h A B. constructor; cbn; auto. intros [H|H]; discriminate. }
  destruct (f_inst (x_f s) && _) eqn:QI.
  { eexists _, _, false. split; [reflexivity|]. split; [apply failed_inv; exact SI|]. rewrite <- (app_nil_r ins). eapply k_m3; eauto. cbn. discriminate. }
  match goal with |- context [send_key c e ?x] => set (s1 := x) end.
  destruct (send_key_ok c e s1 (Z.lor (Z.lor (Z.lor (desc_ver s1) 8) 256) 512) 16 (part f 9 8) (repeat 0 32) []) as (o & ok & -> & OS); [exact CO|apply info_m4|lia|exact C1|reflexivity|cbn; lia|]. cbn [obind].
  destruct ok; cbn [negb]; eexists _, _, _; (split; [reflexivity|]); cbn iota.
  - split.
    + constructor; cbn; auto. intros q i HQ HI. injection HQ as <-. cbn in HI. destruct (f_mode (x_f s)); try discriminate. injection HI as <-. exact i_sae0.
    + eapply k_m3; eauto.
  - split; [apply (FB (mkH _ _ _ _ _ _)); cbn; auto|]. eapply k_m3; eauto.
Qed.

Lemma shape_g1 f : key_frame f -> key_info_has (word f 5) (128 + 256 + 512 + 4096) 0 = true -> Z.testbit (word f 5) 3 = false -> is_group1 f.
Proof. intros KF H E. apply has_g1 in H. destruct H as (A & B & D & G). split; [exact KF|]. split; [unfold bit, b_pairwise; congruence|]. auto. Qed.
Lemma handle_group_ok c e s f k now : crypto_ok c -> SInv s -> env_ok e -> Forall byte f -> key_frame f -> key_fields f k -> right_version (f_mode (x_f s)) f -> kv_frame_len k <= 355 -> x_state s = Auth -> Z.testbit (word f 5) 3 = false ->
  exists s' out ok, handle_group_m1 c e s k (copy_of f k) = Some (s', out, ok) /\ SInv s' /\ kind c s (SRx f now e) s' out.
Proof.
  intros CO SI EO HB KF KS RV L355 ST NP. pose proof KS as (K1 & _ & K3 & _ & K5 & K6 & _ & _). destruct (frame_counter f HB KF) as (C1 & C2 & C3). pose proof SI as [].
  assert (BAD : exists s' out ok, Some (s, @nil sout, false) = Some (s', out, ok) /\ SInv s' /\ kind c s (SRx f now e) s' out).
  { eexists _, _, false. split; [reflexivity|]. split; [exact SI|]. apply k_quiet; auto. }
  unfold handle_group_m1. rewrite K3. destruct (key_info_has (word f 5) (128 + 256 + 512 + 4096) 0) eqn:HM; cbn [negb]; [|exact BAD]. cbv zeta.
  destruct i_flags0 as [HP HR]; [right; exact ST|]. rewrite HR. cbn [andb]. rewrite K5, newer_spec; [|rewrite C1; symmetry; apply i_rep0|exact C2|apply i_rep0].
  destruct (Z.ltb_spec (num (h_replay (x_h s))) (num (part f 9 8))) as [CT|CT]; cbn [negb]; [|exact BAD].
  destruct (verify_spec c s f k (copy_of f k) HB KF KS L355 eq_refl) as (v & -> & VS). cbn [obind]. destruct v; cbn [negb]; [|exact BAD].
  assert (MV : mic_valid c (is_cmac s) (p_kck (h_ptk (x_h s))) f) by (apply VS; reflexivity).
  destruct (parse_data_spec c s f k false CO HB KF KS) as (g & -> & PG & _). cbn [obind]. destruct g as [[idx key]|]; [|exact BAD].
  destruct (PG idx key eq_refl) as (p & EN & UW & CG & _).
  assert (G1 : grp_now c s f idx key).
  { split; [apply shape_g1; assumption|]. split; [exact RV|]. split; [exact CT|]. split; [exact MV|]. exists p. auto. }
  destruct (f_inst (x_f s) && negb (e_inst_g e)) eqn:QI.
  { apply andb_prop in QI. destruct QI as [-> QI]. destruct (e_inst_g e); [discriminate|]. eexists _, _, false. split; [reflexivity|]. split; [exact SI|].
    change [OInstall false idx key false] with ([OInstall false idx key false] ++ []). eapply k_grp; eauto. }
  match goal with |- context [send_key c e ?x] => set (s1 := x) end.
  destruct (send_key_ok c e s1 (Z.lor (Z.lor (desc_ver s1) 256) 512) 0 (part f 9 8) (repeat 0 32) []) as (o & ok & -> & OS); [exact CO|apply info_g2|lia|exact C1|reflexivity|cbn; lia|]. cbn [obind].
  eexists _, _, _. split; [reflexivity|]. split; [constructor; cbn; auto|]. eapply k_grp; eauto. left. split; [|reflexivity].
  destruct (f_inst (x_f s)); [|auto]. destruct (e_inst_g e); [auto|discriminate].
Qed.

Lemma rx_key_ok c e s f now : crypto_ok c -> SInv s -> env_ok e -> Forall byte f ->
  exists s' out ok, rx_key c e s f now = Some (s', out, ok) /\ SInv s' /\ kind c s (SRx f now e) s' out.
Proof.
  intros CO SI EO HB. unfold rx_key. destruct (eapol_key_parse_exact f HB) as (r & -> & P1 & P2). cbn [obind].
  assert (QU : exists s' out ok', Some (s, @nil sout, false) = Some (s', out, ok') /\ SInv s' /\ kind c s (SRx f now e) s' out).
  { eexists _, _, _. split; [reflexivity|]. split; [exact SI|]. apply k_quiet; auto. }
  destruct r as [k|]; [|apply QU]. assert (KF : key_frame f).
  { destruct (key_frame_dec f) as [H|H]; [exact H|]. specialize (P2 H). discriminate. }
  destruct (P1 KF) as (k' & HK & KS). injection HK as <-. pose proof KS as (K1 & _ & K3 & _ & K5 & K6 & _ & _).
  destruct (Z.eqb_spec (Z.land (kv_info k) 7) (desc_ver s)) as [V|V]; cbn [negb]; [|apply QU]. rewrite K3 in V. apply right_ver in V.
  destruct (Z.ltb_spec 355 (kv_frame_len k)) as [L355|L355]; [apply QU|].
  pose proof KF as (F1 & _ & _ & F4 & F5 & _). rewrite mread_part by lia. cbn [obind].
  rewrite (mwrite_eq (repeat 0 355) [] (repeat 0 (Z.to_nat (kv_frame_len k))) (repeat 0 (Z.to_nat (355 - kv_frame_len k))) (part f 0 (kv_frame_len k)) 0 (copy_of f k));
    [|cbn [app]; rewrite <- repeat_split; f_equal; lia|reflexivity|rewrite zlen_part, zlen_repeat by lia; lia|reflexivity]. cbn [obind].
  destruct (x_state s) eqn:ST; try apply QU.
  - destruct (handle_m1_ok c e s f k now) as (s' & out & ok & -> & A & B); auto. cbn [obind]. eexists _, _, _. split; [reflexivity|]. auto.
  - pose proof SI as []. unfold m1_retransmit. destruct (key_info_has (kv_info k) (8 + 128) 256); cbn [negb obind].
    + destruct (h_have_ptk (x_h s) && bytes_eqb (kv_nonce k) (h_anonce (x_h s))); cbn [obind].
      * destruct (send_m2_ok c e s) as (o & ok & -> & OS); [exact CO|apply i_rep0|exact i_sn0|apply i_own0|]. cbn [obind].
        eexists _, _, _. split; [reflexivity|]. destruct ok; (split; [try (constructor; cbn; auto; lia)|apply k_quiet; auto]); exact SI.
      * eexists _, _, _. split; [reflexivity|]. split; [exact SI|]. apply k_quiet; auto.
    + destruct (handle_m3_ok c e s f k now) as (s' & out & ok & -> & A & B); auto. cbn [obind]. eexists _, _, _. split; [reflexivity|]. auto.
  - change 8 with (2 ^ 3). rewrite clear_bit by lia. rewrite K3. destruct (Z.testbit (word f 5) 3) eqn:B3; cbn [negb]; [apply QU|].
    apply handle_group_ok; assumption.
Qed.

(** ** EAP, SAE, timers, configuration: no nonce, no key, no way into M3Wait or Auth *)
Definition quiet_step (s s' : supp) (out : list sout) : Prop :=
  Forall is_send out /\ (live s' -> s' = s \/ (x_f s' = x_f s /\ x_h s' = x_h s /\ x_state s' = x_state s)).
Definition frame_of (s s' : supp) : Prop :=   (* everything but io, tls_done, state, pmk, m2, hs, sae, inst *)
  x_f s' = x_f s /\ x_h s' = x_h s /\ x_own s' = x_own s /\ x_cache s' = x_cache s.
Lemma frame_inv s s' : SInv s -> frame_of s s' -> EInv (x_io s') -> zlen (snd (x_sae s')) = 16 /\ Forall byte (snd (x_sae s')) -> 0 <= x_m2_left s' <= 3 -> (live s' -> live s) -> SInv s'.
Proof. intros [] (A & B & D & E) IO SA M2 LV. constructor; rewrite ?B, ?D, ?E; auto. Qed.
Lemma quiet_kind c s o s' out : Forall is_send out -> ~ live s' -> kind c s o s' out.
Proof. intros. apply k_quiet; tauto. Qed.
Lemma same_kind c s o s' out : Forall is_send out -> x_f s' = x_f s -> x_h s' = x_h s -> x_state s' = x_state s -> kind c s o s' out.
Proof. intros. apply k_quiet; tauto. Qed.

Lemma send_eap_tls_ok e s id ack : EInv (x_io s) -> exists i o ok, send_eap_tls e s id ack = Some (set_io s i (x_tls_done s), o, ok) /\ EInv i /\ Forall is_send o.
Proof.
  intros [RI TI]. unfold send_eap_tls. destruct ack; cbn [obind].
  - assert (IDS : s = set_io s (x_io s) (x_tls_done s)) by (destruct s; reflexivity).
    change (65535 <? 5 + zlen [0]) with false. cbn iota. destruct (send_packet_ok e s 0 ([2; id; u8 ((5 + zlen [0]) / 256); u8 (5 + zlen [0]); 13] ++ [0])) as (o & ok & -> & OS). cbn [obind].
    exists (x_io s), o, ok. rewrite <- IDS. split; [reflexivity|]. split; [split; assumption|exact OS].
  - destruct (tx_spec (x_io s) 1024 TI) as (i & r & -> & TI' & R1 & R2 & R3 & R4 & _). cbn [obind].
    assert (EI : EInv i). { split; [|exact TI']. unfold RInv in *. rewrite R1, R2, R3. exact RI. }
    destruct r as [[p more]|].
    + destruct (65535 <? 5 + zlen p). { eexists _, _, _. split; [reflexivity|]. split; [exact EI|constructor]. }
      destruct (send_packet_ok e (set_io s i (x_tls_done s)) 0 ([2; id; u8 ((5 + zlen p) / 256); u8 (5 + zlen p); 13] ++ p)) as (o & ok & -> & OS). cbn [obind].
      eexists _, _, _. split; [reflexivity|]. auto.
    + eexists _, _, _. split; [reflexivity|]. split; [exact EI|constructor].
Qed.
Lemma tls_step_ok e s : EInv (x_io s) -> env_ok e -> exists i, tls_step e s = Some (set_io s i (x_tls_done s || (e_tls_ok e && e_tls_done e)), e_tls_ok e) /\ EInv i.
Proof.
  intros EI (_ & _ & ET & _). unfold tls_step. set (os := filter _ _). destruct (erun_inv os (x_io s) EI) as (i & rs & -> & EI').
  - apply Forall_forall. intros x HX. unfold os in HX. apply filter_In in HX. rewrite Forall_forall in ET. apply ET. apply HX.
  - cbn [obind]. eexists. split; [reflexivity|exact EI'].
Qed.

(** Result of the EAP handlers: state in {same, EapProg, M1Wait, Failed}. *)
Lemma eap_request_ok e s v : SInv s -> env_ok e -> Forall byte (ev_data v) -> exists s' out ok, eap_request e s v = Some (s', out, ok) /\
  Forall is_send out /\ frame_of s s' /\ EInv (x_io s') /\ x_sae s' = x_sae s /\ x_m2_left s' = x_m2_left s /\ (x_state s' = x_state s \/ x_state s' = EapProg) /\
  (live s' -> ok = false) /\ x_pmk s' = x_pmk s /\ x_hs s' = x_hs s /\ x_pmk_inst s' = x_pmk_inst s /\
  (x_tls_done s' = true -> x_tls_done s = true \/ (e_tls_ok e = true /\ e_tls_done e = true)) /\ (x_state s' = x_state s \/ x_state s = EapWait).
Proof.
  intros SI EO HD. pose proof SI as []. assert (FS : frame_of s s) by (unfold frame_of; auto).
  assert (BAD : exists s' out ok, Some (s, @nil sout, false) = Some (s', out, ok) /\
    Forall is_send out /\ frame_of s s' /\ EInv (x_io s') /\ x_sae s' = x_sae s /\ x_m2_left s' = x_m2_left s /\ (x_state s' = x_state s \/ x_state s' = EapProg) /\ (live s' -> ok = false) /\ x_pmk s' = x_pmk s /\ x_hs s' = x_hs s /\ x_pmk_inst s' = x_pmk_inst s /\
    (x_tls_done s' = true -> x_tls_done s = true \/ (e_tls_ok e = true /\ e_tls_done e = true)) /\ (x_state s' = x_state s \/ x_state s = EapWait)).
  { eexists _, _, _. split; [reflexivity|]. auto 20. }
  unfold eap_request. destruct (ev_type v =? 1).
  { destruct (x_state s) eqn:ST; try exact BAD; destruct (send_identity_ok e s (ev_id v)) as (o & ok & -> & OS); cbn [obind]; destruct ok; cbn [negb];
      (eexists _, _, _; split; [reflexivity|]); (split; [exact OS|]); cbn; rewrite ?ST; unfold live; cbn; rewrite ?ST; sp. }
  destruct (ev_type v =? 13); [|exact BAD]. destruct (x_state s) eqn:ST; try exact BAD.
  destruct i_io0 as [RI TI]. destruct (rx_spec (x_io s) (ev_data v) RI HD) as (i & rc & -> & RI' & T1 & T2 & T3 & _). cbn [obind].
  assert (EI : EInv i). { split; [exact RI'|]. unfold TInv in *. rewrite T1, T2, T3. exact TI. }
  destruct (rc <? 0). { eexists _, _, _. split; [reflexivity|]. unfold frame_of; cbn. rewrite ?ST. sp. }
  destruct (negb (rc =? 1) && negb (rx_complete i)).
  { destruct (send_eap_tls_ok e (set_io s i (x_tls_done s)) (ev_id v) true EI) as (i2 & o & ok & -> & EI2 & OS). eexists _, _, _. split; [reflexivity|]. unfold frame_of, live; cbn. rewrite ?ST. sp. }
  destruct (tls_step_ok e (set_io s i (x_tls_done s)) EI EO) as (i2 & -> & EI2). cbn [obind].
  assert (TD : x_tls_done s || (e_tls_ok e && e_tls_done e) = true -> x_tls_done s = true \/ (e_tls_ok e = true /\ e_tls_done e = true)).
  { destruct (x_tls_done s); cbn; [auto|]. destruct (e_tls_ok e), (e_tls_done e); cbn; auto; discriminate. }
  destruct (e_tls_ok e) eqn:TO; cbn [negb].
  2: { eexists _, _, _. split; [reflexivity|]. unfold frame_of, live; cbn. rewrite ?ST. sp. }
  match goal with |- context [x_io ?x] => set (s2 := x) end.
  destruct (0 <? zlen (tx_buf (x_io s2))).
  - destruct (send_eap_tls_ok e s2 (ev_id v) false EI2) as (i3 & o & ok & -> & EI3 & OS). eexists _, _, _. split; [reflexivity|]. unfold frame_of, live; cbn. rewrite ?ST. sp.
  - destruct (send_eap_tls_ok e s2 (ev_id v) true EI2) as (i3 & o & ok & -> & EI3 & OS). eexists _, _, _. split; [reflexivity|]. unfold frame_of, live; cbn. rewrite ?ST. sp.
Qed.
Lemma rd16_le_in f o : 0 <= o -> o + 1 < zlen f -> exists v, rd16_le f o = Some v.
Proof. intros. unfold rd16_le. rewrite !rd1_in by lia. cbn [obind]. eauto. Qed.
Lemma m2_frame s s' : SInv s -> frame_of s s' -> x_io s' = x_io s -> x_sae s' = x_sae s -> 0 <= x_m2_left s' <= 3 -> (live s' -> live s) -> SInv s'.
Proof. intros SI FR IO SA M2 LV. pose proof SI as []. eapply frame_inv; eauto; rewrite ?IO, ?SA; auto. Qed.
Lemma not_live s v : x_state s = v -> v <> M3Wait -> v <> Auth -> ~ live s.
Proof. intros E A B [H|H]; congruence. Qed.
Lemma rx_eap_ok c e s f now : SInv s -> env_ok e -> Forall byte f -> 4 <= zlen f ->
  exists s' out ok, rx_eap e s f = Some (s', out, ok) /\ SInv s' /\ kind c s (SRx f now e) s' out.
Proof.
  intros SI EO HB L4. pose proof SI as []. unfold rx_eap. rewrite rd16_in by lia. cbn [obind].
  assert (QU : exists s' out ok', Some (s, @nil sout, false) = Some (s', out, ok') /\ SInv s' /\ kind c s (SRx f now e) s' out).
  { eexists _, _, _. split; [reflexivity|]. split; [exact SI|]. apply k_quiet; auto. }
  pose proof (word_range f 2 HB). destruct (Z.ltb_spec (zlen f) (word f 2 + 4)); [exact QU|]. rewrite mread_part by lia. cbn [obind].
  destruct (eap_parse_exact (part f 4 (word f 2)) ltac:(apply part_bytes; exact HB)) as (r & -> & P1 & P2). cbn [obind]. destruct r as [v|]; [|exact QU].
  assert (HV : ev_code v = 1 -> Forall byte (ev_data v)).
  { unfold eap_ok in *. set (b := part f 4 (word f 2)) in *. assert (D : eap_ok b \/ ~ eap_ok b).
    { unfold eap_ok. destruct (Z_le_dec 4 (zlen b)); [|tauto]. destruct (Z_le_dec 4 (word b 2)); [|right; lia]. destruct (Z_le_dec (word b 2) (zlen b)); [|right; lia].
      destruct (Z_le_dec 5 (word b 2)); [left; lia|]. destruct (Z.eq_dec (zget b 0) 1); [right; lia|]. destruct (Z.eq_dec (zget b 0) 2); [right; lia|left; lia]. }
    destruct D as [D|D]; [|specialize (P2 D); discriminate]. destruct (P1 D) as (v' & HV & FV). injection HV as <-.
    intros HC. destruct FV as (FC & _ & _ & FV). destruct FV as [_ ->]; [left; congruence|]. apply part_bytes, part_bytes, HB. }
  destruct (Z.eqb_spec (ev_code v) 1) as [HC|HC].
  { destruct (eap_request_ok e s v SI EO (HV HC)) as (s1 & o & ok & -> & A1 & A2 & A3 & A4 & A5 & A6 & A7 & _). cbn [obind]. eexists _, _, _. split; [reflexivity|]. destruct ok.
    - assert (NL : ~ live s1) by (intros HX; specialize (A7 HX); discriminate). split; [|apply quiet_kind; assumption].
      eapply frame_inv; eauto; rewrite ?A4, ?A5; auto. tauto.
    - split; [|apply quiet_kind; [assumption|eapply not_live; [reflexivity| |]; discriminate]].
      eapply frame_inv; eauto; cbn; rewrite ?A4, ?A5; auto. intros [HX|HX]; discriminate. }
  destruct (ev_code v =? 3).
  { unfold eap_success. assert (FA : exists s' out ok', Some (set_state s Failed, @nil sout, false) = Some (s', out, ok') /\ SInv s' /\ kind c s (SRx f now e) s' out).
    { eexists _, _, _. split; [reflexivity|]. split; [apply failed_inv; exact SI|apply quiet_kind; [constructor|silive]]. }
    destruct (f_mode (x_f s)); try exact FA. destruct (x_state s) eqn:ST; try exact FA. destruct (x_tls_done s); cbn [negb]; [|exact FA].
    destruct (e_msk e) as [msk|] eqn:EM; [|exact FA]. destruct EO as (_ & E2 & _). specialize (E2 msk EM). rewrite mread_part by lia. cbn [obind].
    eexists _, _, _. split; [reflexivity|]. split; [|apply quiet_kind; [constructor|silive]]. eapply m2_frame; [exact SI|unfold frame_of; cbn; auto|reflexivity|reflexivity|exact i_m3|silive]. }
  destruct (ev_code v =? 4); [|exact QU]. eexists _, _, _. split; [reflexivity|]. split; [apply failed_inv; exact SI|apply quiet_kind; [constructor|silive]].
Qed.
Lemma kick_ok c e s now : SInv s -> exists s' out ok, kick e s now = Some (s', out, ok) /\ SInv s' /\ kind c s (SKick now e) s' out.
Proof.
  intros SI. pose proof SI as []. unfold kick. destruct (x_state s) eqn:ST; try (eexists _, _, _; split; [reflexivity|]; split; [exact SI|]; apply k_quiet; auto; fail).
  set (s1 := set_hs _ now). assert (FR : forall v, frame_of s (set_state s1 v)) by (intros v; unfold frame_of; cbn; auto).
  assert (G : forall v out (ok : bool), Forall is_send out -> v <> M3Wait -> v <> Auth -> exists s' out' ok', Some (set_state s1 v, out, ok) = Some (s', out', ok') /\ SInv s' /\ kind c s (SKick now e) s' out').
  { intros v out ok HO N1 N2. eexists _, _, _. split; [reflexivity|]. assert (NL : ~ live (set_state s1 v)) by (apply (not_live _ v); auto). split; [|apply quiet_kind; assumption].
    eapply m2_frame; [exact SI|apply FR|reflexivity|reflexivity|cbn; lia|tauto]. }
  assert (ID : s1 = set_state s1 Idle) by (unfold s1; destruct s; cbn in *; subst; reflexivity).
  change (f_mode (x_f s1)) with (f_mode (x_f s)). destruct (f_mode (x_f s)).
  - apply G; [constructor|discriminate|discriminate].
  - destruct (send_packet_ok e s1 1 []) as (o & ok & -> & OS). cbn [obind]. destruct ok; cbn [negb]; [apply G; [exact OS|discriminate|discriminate]|]. rewrite ID. apply G; [exact OS|discriminate|discriminate].
  - destruct (x_pmk_inst s1); [apply G; [constructor|discriminate|discriminate]|]. destruct (negb _); [rewrite ID; apply G; [constructor|discriminate|discriminate]|apply G; [repeat constructor|discriminate|discriminate]].
Qed.
Lemma rx_auth_ok c e s f : SInv s -> env_ok e -> exists s' out ok, rx_auth e s f = Some (s', out, ok) /\ SInv s' /\ kind c s (SAuth f e) s' out.
Proof.
  intros SI EO. pose proof SI as []. assert (QU : exists s' out ok', Some (s, @nil sout, false) = Some (s', out, ok') /\ SInv s' /\ kind c s (SAuth f e) s' out).
  { eexists _, _, _. split; [reflexivity|]. split; [exact SI|]. apply k_quiet; auto. }
  assert (FA : exists s' out ok', Some (set_state s Failed, @nil sout, false) = Some (s', out, ok') /\ SInv s' /\ kind c s (SAuth f e) s' out).
  { eexists _, _, _. split; [reflexivity|]. split; [apply failed_inv; exact SI|apply quiet_kind; [constructor|silive]]. }
  unfold rx_auth. destruct (Z.ltb_spec (zlen f) 6); [exact QU|]. destruct (f_mode (x_f s)); try exact QU.
  destruct (rd16_le_in f 0) as (a & ->); [lia|lia|]. destruct (rd16_le_in f 2) as (q & ->); [lia|lia|]. destruct (rd16_le_in f 4) as (t & ->); [lia|lia|]. cbn [obind].
  destruct (negb (a =? 3)); [exact QU|]. destruct (negb (t =? _)); [exact FA|]. destruct (q =? 1).
  { destruct (x_state s) eqn:ST; try exact QU. destruct (negb (e_sae_parse e)); [exact FA|]. destruct (e_sae_derive e) as [[p i]|] eqn:ED; [|exact FA].
    destruct EO as (_ & _ & _ & E4 & _). destruct (E4 p i ED) as [I1 I2].
    destruct (negb _); (eexists _, _, _; split; [reflexivity|]); (split; [|apply quiet_kind; [repeat constructor|silive]]).
    - eapply frame_inv; [exact SI|unfold frame_of; cbn; auto|exact i_io0|cbn; auto|exact i_m3|silive].
    - eapply frame_inv; [exact SI|unfold frame_of; cbn; auto|exact i_io0|cbn; auto|exact i_m3|silive]. }
  destruct (q =? 2); [|exact QU]. destruct (x_state s) eqn:ST; try exact QU. destruct EO as (_ & _ & _ & _ & E5). destruct (Z.ltb_spec (zlen f) (8 + e_sae_kck e)); [exact QU|].
  destruct (rd16_le_in f 6) as (u & ->); [lia|lia|]. cbn [obind]. destruct (negb (e_sae_verify e)); [exact FA|].
  eexists _, _, _. split; [reflexivity|]. split; [|apply quiet_kind; [constructor|silive]].
  eapply m2_frame; [exact SI|unfold frame_of; cbn; auto|reflexivity|reflexivity|exact i_m3|silive].
Qed.
Lemma tick_ok c e s now : crypto_ok c -> SInv s -> exists s' out, tick c e s now = Some (s', out) /\ SInv s' /\ kind c s (STick now e) s' out /\ zlen out + x_m2_left s' <= x_m2_left s.
Proof.
  intros CO SI. pose proof SI as []. assert (QU : exists s' out, Some (s, @nil sout) = Some (s', out) /\ SInv s' /\ kind c s (STick now e) s' out /\ zlen out + x_m2_left s' <= x_m2_left s).
  { eexists _, _. split; [reflexivity|]. split; [exact SI|]. split; [apply k_quiet; auto|change (zlen (@nil sout)) with 0; lia]. }
  assert (FA : exists s' out, Some (set_state s Failed, @nil sout) = Some (s', out) /\ SInv s' /\ kind c s (STick now e) s' out /\ zlen out + x_m2_left s' <= x_m2_left s).
  { eexists _, _. split; [reflexivity|]. split; [apply failed_inv; exact SI|]. split; [apply quiet_kind; [constructor|silive]|change (zlen (@nil sout)) with 0; cbn; lia]. }
  unfold tick. destruct (_ && _ && _); [exact FA|]. destruct (x_state s) eqn:ST; try exact QU. destruct (now <=? x_m2_send s); [exact QU|]. destruct (now - x_m2_send s <? 1000); [exact QU|].
  destruct (Z.eqb_spec (x_m2_left s) 0) as [Q|Q]; [exact FA|]. set (s1 := set_m2 s (x_m2_send s) (x_m2_left s - 1)).
  destruct (send_spec_key c e s1 (Z.lor (Z.lor (desc_ver s1) 8) 256) 16 (h_replay (x_h s1)) (h_snonce (x_h s1)) (x_own s1)) as (o & ok & E & P);
    [exact CO|apply info_m2|lia|apply i_rep0|exact i_sn0|apply i_own0|]. unfold send_m2. rewrite E. cbn [obind].
  assert (OS : Forall is_send o /\ zlen o <= 1). { destruct (cr_mic _ _ _ _); [destruct (f_send _)|]; destruct P as [-> _]; (split; [repeat constructor|cbn; lia]). }
  destruct OS as [OS OL]. destruct ok; cbn [negb]; (eexists _, _; split; [reflexivity|]).
  - split; [eapply m2_frame; [exact SI|unfold frame_of; cbn; auto|reflexivity|reflexivity|cbn; lia|]|].
    + intros _. left. exact ST.
    + split; [apply same_kind; auto|cbn; lia].
  - split; [eapply m2_frame; [exact SI|unfold frame_of; cbn; auto|reflexivity|reflexivity|cbn; lia|silive]|]. split; [apply quiet_kind; [exact OS|silive]|cbn; lia].
Qed.

Lemma build_ies_ok g : exists own apie, build_ies g = Some (own, apie) /\ zlen own = 22 /\ Forall byte own.
Proof.
  unfold build_ies. destruct (c_mfpc g), (c_mfpr g), (c_mode g);
    match goal with |- context [if ?b then c_apie g else _] => set (bb := b) end;
    (match goal with |- context [rsn_ie_build ?a ?b] => let x := eval vm_compute in (rsn_ie_build a b) in change (rsn_ie_build a b) with x end);
    cbn [obind]; (match goal with |- context [mread ?a ?b ?d] => let x := eval vm_compute in (mread a b d) in change (mread a b d) with x end);
    cbn [obind]; (match goal with |- context [mwrite ?a ?b ?d] => let x := eval vm_compute in (mwrite a b d) in change (mwrite a b d) with x end);
    cbn [obind]; (eexists _, _; split; [reflexivity|]); (split; [reflexivity|apply allbytes_ok; reflexivity]).
Qed.
Lemma s_zero_inv : SInv s_zero.
Proof.
  constructor; cbn; [apply reach_inv0|split; [reflexivity|apply allbytes_ok; reflexivity]|reflexivity|split; [cbn; lia|constructor]|discriminate|split; [reflexivity|apply allbytes_ok; reflexivity]|silive|lia].
Qed.
Lemma init_ok c s g : SInv s -> exists s' ok, init c s g = Some (s', ok) /\ SInv s' /\ kind c s (SInit g) s' [].
Proof.
  intros SI. pose proof SI as []. unfold init. destruct (negb (validate g)). { eexists _, _. split; [reflexivity|]. split; [exact SI|]. apply k_quiet; auto. }
  cbv zeta. match goal with |- context [match ?x with Some _ => _ | None => Some (s_zero, false) end] => destruct x as [pmk|] end.
  2: { eexists _, _. split; [reflexivity|]. split; [apply s_zero_inv|]. apply quiet_kind; [constructor|silive]. }
  destruct (build_ies_ok g) as (own & apie & -> & LO & BO). cbn [obind]. eexists _, _. split; [reflexivity|]. split; [|apply quiet_kind; [constructor|silive]].
  constructor; cbn; [apply reach_inv0|split; [reflexivity|apply allbytes_ok; reflexivity]|reflexivity|split; [lia|exact BO]| |split; [reflexivity|apply allbytes_ok; reflexivity]|silive|lia].
  intros q i HQ. destruct (match x_cache s with Some q0 => bytes_eqb (q_ssid q0) (c_ssid g) | None => false end); [|discriminate]. apply i_cache0. exact HQ.
Qed.
Lemma reconnect_ok c s : SInv s -> exists s' ok, reconnect s = Some (s', ok) /\ SInv s' /\ kind c s SReconnect s' [].
Proof.
  intros SI. pose proof SI as []. assert (QU : exists s' ok', Some (s, false) = Some (s', ok') /\ SInv s' /\ kind c s SReconnect s' []).
  { eexists _, _. split; [reflexivity|]. split; [exact SI|]. apply k_quiet; auto. }
  unfold reconnect. destruct (x_cache s) as [[qp qs qb pp [qid|]]|] eqn:EC; try exact QU. destruct (negb _); [exact QU|]. destruct (i_cache0 _ qid eq_refl eq_refl) as [LQ BQ].
  assert (G : forall own (b : bool), zlen own <= 64 /\ Forall byte own -> forall s2, x_own s2 = own -> x_io s2 = x_io s -> x_cache s2 = x_cache s -> x_sae s2 = x_sae s -> h_replay (x_h s2) = h_replay (x_h s) ->
    let s3 := set_inst (set_pmk s2 qp) in let h := x_h s3 in let s4 := set_h (set_state s3 Idle) (mkH (h_ptk h) false (zeros 32) (zeros 32) (h_replay h) false) in
    exists s' ok', Some (set_m2 s4 (x_m2_send s4) 0, b) = Some (s', ok') /\ SInv s' /\ kind c s SReconnect s' []).
  { intros own b HO s2 E1 E2 E3 E4 E5. eexists _, _. split; [reflexivity|]. split; [|apply quiet_kind; [constructor|silive]].
    constructor; cbn; rewrite ?E1, ?E2, ?E3, ?E4, ?E5, ?EC; auto; [silive|lia]. }
  destruct (x_pmkid_in s).
  - cbn [obind]. apply (G (x_own s) true i_own0 s); reflexivity.
  - destruct ((zlen (x_own s) + 18 <=? 64) && (22 <=? zlen (x_own s))) eqn:QL; cbn [negb obind]; [|exact QU].
    rewrite rd1_in by lia. cbn [obind]. destruct (255 <? zget (x_own s) 1 + 18) eqn:Q2; cbn [obind]; [exact QU|].
    destruct (split_at (x_own s) 1) as (a & r0 & EO & LA & LR); [lia|]. destruct (split_at r0 1) as (b & r & -> & LB & LR2); [lia|].
    rewrite (mwrite_eq _ a b (r ++ [1; 0] ++ qid) [u8 (zget (x_own s) 1 + 18)] 1 (a ++ [u8 (zget (x_own s) 1 + 18)] ++ r ++ [1; 0] ++ qid));
      [|rewrite EO at 1; rewrite <- !app_assoc; reflexivity|rewrite LA; reflexivity|rewrite LB; reflexivity|reflexivity]. cbn [obind].
    eapply (G (a ++ [u8 (zget (x_own s) 1 + 18)] ++ r ++ [1; 0] ++ qid) true); try reflexivity. split.
    + rewrite !zlen_app. rewrite LQ. change (zlen [u8 (zget (x_own s) 1 + 18)]) with 1. change (zlen [1; 0]) with 2. rewrite EO, !zlen_app in QL. lia.
    + destruct i_own0 as [_ BO]. rewrite EO in BO. apply Forall_app in BO. destruct BO as [B1 B2]. apply Forall_app in B2. destruct B2 as [_ B2]. repeat rewrite Forall_app. split; [exact B1|].
      split; [constructor; [unfold byte, u8; apply Z.mod_pos_bound; lia|constructor]|]. split; [exact B2|]. split; [apply allbytes_ok; reflexivity|exact BQ].
Qed.
Lemma install_ok c s p : SInv s -> exists s' ok, install_pmk s p = (s', ok) /\ SInv s' /\ kind c s (SInstallPmk p) s' [].
Proof.
  intros SI. pose proof SI as []. unfold install_pmk. destruct (negb _); [|destruct (f_mode (x_f s))]; (eexists _, _; split; [reflexivity|]); (split; [|apply k_quiet; auto]); try exact SI. constructor; cbn; auto.
Qed.
Lemma sstep_ok c s o : crypto_ok c -> SInv s -> sop_ok o -> exists s' out ok, sstep c s o = Some (s', out, ok) /\ SInv s' /\ kind c s o s' out.
Proof.
  intros CO SI HO. destruct o as [g| |now e|f now e|f e|now e|p| |]; cbn [sstep sop_ok] in *.
  - destruct (init_ok c s g SI) as (s' & ok & -> & A & B). cbn [obind]. eauto 10.
  - eexists _, _, _. split; [reflexivity|]. split; [apply s_zero_inv|apply quiet_kind; [constructor|silive]].
  - apply kick_ok; assumption.
  - destruct HO as [HB EO]. unfold supp_rx. destruct (Z.ltb_spec (zlen f) 4). { eexists _, _, _. split; [reflexivity|]. split; [exact SI|apply k_quiet; auto]. }
    rewrite rd1_in by lia. cbn [obind]. destruct (zget f 1 =? 0); [apply rx_eap_ok; assumption|]. destruct (negb _); [|apply rx_key_ok; assumption].
    eexists _, _, _. split; [reflexivity|]. split; [exact SI|apply k_quiet; auto].
  - apply rx_auth_ok; tauto.
  - destruct (tick_ok c e s now CO SI) as (s' & out & -> & A & B & _). cbn [obind]. eauto 10.
  - destruct (install_ok c s p SI) as (s' & ok & -> & A & B). eauto 10.
  - destruct (reconnect_ok c s SI) as (s' & ok & -> & A & B). cbn [obind]. eauto 10.
  - eexists _, _, _. split; [reflexivity|]. pose proof SI as []. split; [constructor; cbn; auto; discriminate|apply k_quiet; auto].
Qed.
