(** What each call does to the master key, the timers and the cache. *)
From Verif Require Import Base ListUtil HttpUrl EapTls EapTlsProps Eapol EapolProps ForwardSpec ForwardProofs ForwardStep Supplicant SupplicantSpec SupplicantProofs SupplicantInv SupplicantHist.
Local Ltac Zify.zify_post_hook ::= idtac.

Ltac inv1 H := lazymatch type of H with
  | obind ?e _ = Some _ => let E := fresh "E" in destruct e eqn:E; cbn [obind] in H; [|discriminate H]
  | (if ?b then _ else _) = Some _ => let E := fresh "E" in destruct b eqn:E
  | match ?x with _ => _ end = Some _ => let E := fresh "E" in destruct x eqn:E; try discriminate H
  | Some _ = Some _ => first [discriminate H | injection H; clear H; intros; subst]
  end.
Ltac inv H := repeat (inv1 H).

Definition keyed (s : supp) : Prop := x_state s = M1Wait \/ x_state s = M3Wait \/ x_state s = Auth.
Definition keep (s s' : supp) : Prop :=
  x_f s' = x_f s /\ x_pmk s' = x_pmk s /\ x_pmk_inst s' = x_pmk_inst s /\ x_sae s' = x_sae s /\ x_hs s' = x_hs s /\ x_tls_done s' = x_tls_done s.
(** The entry stored on authentication. *)
Definition stored (s s' : supp) : Prop :=
  x_cache s' = x_cache s \/ x_cache s' = Some (mkQ (x_pmk s) (f_ssid (x_f s)) (f_ap (x_f s)) (f_pp (x_f s)) (match f_mode (x_f s) with SAE => Some (snd (x_sae s)) | _ => None end)).
Ltac kp := unfold keep, stored, keyed, nonterminal; cbn; sp.

Lemma handle_m1_keep c e s k now s' o ok : handle_m1 c e s k now = Some (s', o, ok) -> keep s s' /\ stored s s' /\ (x_state s' = x_state s \/ x_state s' = M3Wait).
Proof. unfold handle_m1. intros H. inv H; kp. Qed.
Lemma handle_m3_keep c e s k copy s' o ok : handle_m3 c e s k copy = Some (s', o, ok) -> keep s s' /\ stored s s' /\ (x_state s' = x_state s \/ x_state s' = Auth).
Proof. unfold handle_m3. intros H. inv H; kp. Qed.
Lemma handle_group_keep c e s k copy s' o ok : handle_group_m1 c e s k copy = Some (s', o, ok) -> keep s s' /\ stored s s' /\ x_state s' = x_state s.
Proof. unfold handle_group_m1. intros H. inv H; kp. Qed.
Lemma m1_retransmit_keep c e s k now s' o : m1_retransmit c e s k now = Some (Some (s', o)) -> keep s s' /\ stored s s' /\ x_state s' = x_state s.
Proof. unfold m1_retransmit. intros H. inv1 H; [discriminate H|]. inv1 H; [|inv H; kp]. inv1 H. destruct p as [o1 k1]. destruct k1; inv H; kp. Qed.
Lemma rx_key_keep c e s f now s' o ok : rx_key c e s f now = Some (s', o, ok) -> keep s s' /\ stored s s' /\
  (x_state s' = x_state s \/ x_state s' = Failed \/ (x_state s = M1Wait /\ x_state s' = M3Wait) \/ (x_state s = M3Wait /\ x_state s' = Auth)).
Proof.
  unfold rx_key. intros H. inv1 H. destruct o0 as [k|]; [|inv H; kp]. inv1 H; [inv H; kp|]. inv1 H; [inv H; kp|]. inv1 H. inv1 H. destruct (x_state s) eqn:ST; try (inv H; kp; fail).
  - inv1 H. destruct h as [[s1 o1] ok1]. edestruct handle_m1_keep as (K & S & T); [eassumption|]. rewrite ST in T. destruct ok1; inv H; (split; [exact K|split; [exact S|]]); cbn; tauto.
  - inv1 H. destruct o0 as [[s1 o1]|].
    + edestruct m1_retransmit_keep as (K & S & T); [eassumption|]. inv H. rewrite T, ST. auto.
    + inv1 H. destruct h as [[s1 o1] ok1]. edestruct handle_m3_keep as (K & S & T); [eassumption|]. rewrite ST in T. destruct ok1; inv H; (split; [exact K|split; [exact S|]]); cbn; tauto.
  - inv1 H; [|inv H; kp]. apply handle_group_keep in H. destruct H as (K & S & T). rewrite T, ST. auto.
Qed.

(** The PMK after a call, the calls that set it. *)
Definition pmk_step (s : supp) (o : sop) (s' : supp) (ok : bool) : Prop :=
  (x_pmk s' = x_pmk s /\ x_pmk_inst s' = x_pmk_inst s /\ (keyed s' -> keyed s \/ f_mode (x_f s) = PSK \/ (f_mode (x_f s) = SAE /\ x_pmk_inst s = true))) \/
  (exists f now e msk, o = SRx f now e /\ f_mode (x_f s) = EAPTLS /\ x_tls_done s = true /\ e_msk e = Some msk /\ mread msk 0 32 = Some (x_pmk s') /\ x_pmk_inst s' = x_pmk_inst s) \/
  (exists f e, o = SAuth f e /\ f_mode (x_f s) = SAE /\ x_state s = SaeConfirm /\ e_sae_verify e = true /\ ok = true /\ x_pmk s' = fst (x_sae s)) \/
  (exists p, o = SInstallPmk p /\ f_mode (x_f s) = SAE /\ ok = true /\ x_pmk s' = p).
Definition track (s : supp) (o : sop) (s' : supp) (ok : bool) : Prop :=
  x_f s' = x_f s /\ pmk_step s o s' ok /\
  (x_tls_done s' = true -> x_tls_done s = true \/ exists f now e, o = SRx f now e /\ e_tls_ok e = true /\ e_tls_done e = true) /\
  (x_state s' = SaeConfirm -> (x_state s = SaeConfirm /\ x_sae s' = x_sae s) \/ exists f e, o = SAuth f e /\ e_sae_derive e = Some (x_sae s')) /\
  (stored s s' \/ x_cache s' = None) /\
  (nonterminal (x_state s') = true -> (nonterminal (x_state s) = true /\ x_hs s' = x_hs s) \/ exists now e, o = SKick now e /\ ok = true /\ x_hs s' = now).
Ltac tk := unfold track, pmk_step, stored, keyed; cbn.

Lemma track_same s o s' ok : keep s s' -> stored s s' ->
  (x_state s' = x_state s \/ x_state s' = Failed \/ (x_state s = M1Wait /\ x_state s' = M3Wait) \/ (x_state s = M3Wait /\ x_state s' = Auth)) -> track s o s' ok.
Proof.
  intros (A & B & D & E & F & G) S T. unfold track. split; [exact A|]. split.
  { left. split; [exact B|]. split; [exact D|]. unfold keyed. intros HK. left. destruct T as [T|[T|[[T1 T2]|[T1 T2]]]]; [rewrite T in HK; exact HK|destruct HK as [HK|[HK|HK]]; congruence|auto|auto]. }
  split; [intros HT; left; congruence|]. split; [intros HS; left; destruct T as [T|[T|[[T1 T2]|[T1 T2]]]]; [split; congruence|congruence|congruence|congruence]|]. split; [left; exact S|].
  intros HN. left. split; [|exact F]. destruct T as [T|[T|[[T1 T2]|[T1 T2]]]]; [congruence| | |]; rewrite ?T, ?T1, ?T2 in *; [discriminate|reflexivity|discriminate].
Qed.
Lemma keep_refl s : keep s s. Proof. unfold keep; auto 10. Qed.
Lemma track_id s o ok : track s o s ok.
Proof. apply track_same; [apply keep_refl|left; reflexivity|auto]. Qed.
Lemma track_failed s o ok : track s o (set_state s Failed) ok.
Proof. apply track_same; [unfold keep; cbn; auto 10|left; reflexivity|auto]. Qed.

Lemma mread_byte m o n l : Forall byte m -> mread m o n = Some l -> Forall byte l.
Proof. intros HB E. unfold mread in E. destruct (_ && _) in E; [|discriminate]. injection E as <-. apply Forall_firstn, Forall_skipn, HB. Qed.
Lemma eap_ok_dec b : eap_ok b \/ ~ eap_ok b.
Proof.
  unfold eap_ok. destruct (Z_le_dec 4 (zlen b)); [|tauto]. destruct (Z_le_dec 4 (word b 2)); [|right; lia]. destruct (Z_le_dec (word b 2) (zlen b)); [|right; lia].
  destruct (Z_le_dec 5 (word b 2)); [left; lia|]. destruct (Z.eq_dec (zget b 0) 1); [right; lia|]. destruct (Z.eq_dec (zget b 0) 2); [right; lia|left; lia].
Qed.
Lemma sstep_track c s o s' out ok : crypto_ok c -> SInv s -> sop_ok o -> sstep c s o = Some (s', out, ok) ->
  match o with SInit _ | SDeinit | SReconnect => True | _ => track s o s' ok end.
Proof.
  intros CO SI HO. destruct o as [g| |now e|f now e|f e|now e|p| |]; cbn [sstep sop_ok] in *; try (intros; exact I).
  - unfold kick. intros H. destruct (x_state s) eqn:ST; try (inv H; apply track_id).
    set (s1 := set_hs (set_m2 s now 3) now) in *. assert (KF : forall v, v = Idle \/ (f_mode (x_f s) = PSK /\ v = M1Wait /\ ok = true) \/ (f_mode (x_f s) = SAE /\ x_pmk_inst s = true /\ v = M1Wait /\ ok = true) \/ ((v = EapWait \/ v = SaeCommit) /\ ok = true) -> track s (SKick now e) (set_state s1 v) ok).
    { intros v HV. tk. rewrite ST. split; [reflexivity|]. split.
      - left. split; [reflexivity|]. split; [reflexivity|]. intros HK. right. destruct HV as [-> |[[M [-> _]]|[[M [I [-> _]]]|[[-> | ->] _]]]]; auto; destruct HK as [HK|[HK|HK]]; discriminate.
      - split; [auto|]. split; [intros ->; destruct HV as [HV|[[_ [HV _]]|[[_ [_ [HV _]]]|[[HV|HV] _]]]]; discriminate|]. split; [auto|]. intros HN. right. exists now, e.
        destruct HV as [-> |[[M [-> HV]]|[[M [I [-> HV]]]|[[-> | ->] HV]]]]; cbn in HN; try discriminate; auto. }
    assert (ID : s1 = set_state s1 Idle) by (unfold s1; destruct s; cbn in *; subst; reflexivity).
    change (f_mode (x_f s1)) with (f_mode (x_f s)) in H. destruct (f_mode (x_f s)) eqn:MO.
    + inv H. apply KF. auto.
    + inv1 H. destruct p as [o1 k1]. destruct k1; cbn [negb] in H; inv H; [apply KF; auto 10|]. rewrite ID. apply KF. auto.
    + change (x_pmk_inst s1) with (x_pmk_inst s) in H. destruct (x_pmk_inst s) eqn:PI; [inv H; apply KF; auto 10|]. inv1 H; inv H; [rewrite ID; apply KF; auto|apply KF; auto 10].
  - destruct HO as [HB EO]. unfold supp_rx. intros H. inv1 H; [inv H; apply track_id|]. inv1 H. inv1 H.
    2: { inv1 H; [inv H; apply track_id|]. apply rx_key_keep in H. destruct H as (K & S & T). apply track_same; assumption. }
    clear E E0 E1. unfold rx_eap in H. inv1 H. inv1 H; [inv H; apply track_id|]. inv1 H. inv1 H. destruct o as [v|]; [|inv H; apply track_id]. inv1 H.
    + inv1 H. destruct h as [[s1 o1] k1]. assert (HV : Forall byte (ev_data v)).
      { apply Z.eqb_eq in E3. clear - E2 E1 HB E3. pose proof (mread_byte _ _ _ _ HB E1) as BL.
        destruct (eap_parse_exact l BL) as (r & Q & Q1 & Q2). rewrite Q in E2. injection E2 as ->. destruct (eap_ok_dec l) as [D|D]; [|specialize (Q2 D); discriminate].
        destruct (Q1 D) as (v' & HV & FV). injection HV as <-. destruct FV as (FC & _ & _ & FV). destruct FV as [_ ->]; [left; congruence|]. apply part_bytes, BL. }
      destruct (eap_request_ok e s v SI EO HV) as (s2 & o2 & k2 & ES & A1 & A2 & A3 & A4 & A5 & A6 & A7 & A8 & A9 & A10 & A11 & A12). rewrite E4 in ES. injection ES as <- <- <-.
      destruct A2 as (F1 & F2 & F3 & F4). destruct k1; inv H.
      * unfold track. split; [exact F1|]. split.
        { left. split; [exact A8|]. split; [exact A10|]. intros HK. left. unfold keyed in *. destruct A6 as [A6|A6]; rewrite A6 in HK; [exact HK|]. destruct HK as [HK|[HK|HK]]; discriminate. }
        split; [intros HT; destruct (A11 HT) as [Q|Q]; [auto|right; eauto]|]. split; [intros HS; left; split; [destruct A6; congruence|exact A4]|]. split; [left; left; exact F4|].
        intros HN. left. split; [|exact A9]. destruct A12 as [Q|Q]; [congruence|rewrite Q; reflexivity].
      * unfold track. cbn. split; [exact F1|]. split.
        { left. split; [exact A8|]. split; [exact A10|]. intros HK. destruct HK as [HK|[HK|HK]]; discriminate. }
        split; [intros HT; destruct (A11 HT) as [Q|Q]; [auto|right; eauto]|]. split; [discriminate|]. split; [left; left; exact F4|discriminate].
    + inv1 H.
      * inv1 H. destruct h as [[s1 o1] k1]. unfold eap_success in E5.
        assert (FA : (s1, o1, k1) = (s, [], false) -> track s (SRx f now e) s' ok) by (intros Q; injection Q as -> -> ->; inv H; apply track_failed).
        destruct (f_mode (x_f s)) eqn:MO; try (injection E5 as <- <- <-; apply FA; reflexivity). destruct (x_state s) eqn:ST; try (injection E5 as <- <- <-; apply FA; reflexivity).
        destruct (x_tls_done s) eqn:TD; cbn [negb] in E5; [|injection E5 as <- <- <-; apply FA; reflexivity]. destruct (e_msk e) as [msk|] eqn:EM; [|injection E5 as <- <- <-; apply FA; reflexivity].
        destruct (mread msk 0 32) as [pm|] eqn:MR; cbn [obind] in E5; [|discriminate]. injection E5 as <- <- <-. inv H. tk. rewrite ST. cbn. split; [reflexivity|]. split.
        { right. left. exists f, now, e, msk. auto 10. }
        split; [auto|]. split; [discriminate|]. split; [auto|]. auto.
      * inv1 H; inv H; [apply track_failed|apply track_id].
  - unfold rx_auth. intros H. inv1 H; [inv H; apply track_id|]. destruct (f_mode (x_f s)) eqn:MO; try (inv H; apply track_id). inv1 H. inv1 H. inv1 H. inv1 H; [inv H; apply track_id|]. inv1 H; [inv H; apply track_failed|]. inv1 H.
    + destruct (x_state s) eqn:ST; try (inv H; apply track_id). inv1 H; [inv H; apply track_failed|]. destruct (e_sae_derive e) as [v|] eqn:ED; [|inv H; apply track_failed].
      inv1 H; inv H; tk; rewrite ?ST; (split; [reflexivity|]); (split; [left; split; [reflexivity|]; split; [reflexivity|]; intros HK; destruct HK as [HK|[HK|HK]]; discriminate|]); (split; [auto|]);
        (split; [first [discriminate|intros _; right; exists f, e; auto]|]); (split; [auto|]); auto.
    + inv1 H; [|inv H; apply track_id]. destruct (x_state s) eqn:ST; try (inv H; apply track_id). inv1 H; [inv H; apply track_id|]. inv1 H. destruct (e_sae_verify e) eqn:EV; cbn [negb] in H; inv H; [|apply track_failed].
      tk. rewrite ST. split; [reflexivity|]. split; [right; right; left; exists f, e; auto 10|]. split; [auto|]. split; [discriminate|]. split; auto.
  - intros H. inv1 H. destruct p as [s1 o1]. inv H. unfold tick in E. inv1 E; [inv E; apply track_failed|]. destruct (x_state s) eqn:ST; try (inv E; apply track_id).
    inv1 E; [inv E; apply track_id|]. inv1 E; [inv E; apply track_id|]. inv1 E; [inv E; apply track_failed|]. inv1 E. destruct p as [o2 k2].
    destruct k2; cbn [negb] in E; inv E; apply track_same; try (unfold keep; cbn; auto 10; fail); try (left; reflexivity); cbn; rewrite ?ST; auto.
  - intros H. unfold install_pmk in H. destruct (zlen p =? 32); cbn [negb] in H; [|inv H; apply track_id]. destruct (f_mode (x_f s)) eqn:MO; try (inv H; apply track_id). inv H.
    tk. split; [reflexivity|]. split; [right; right; right; exists p; auto 10|]. auto 10.
  - intros H. inv H. tk. split; [reflexivity|]. split; [left; auto|]. auto 10.
Qed.
