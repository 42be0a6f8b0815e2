(** C58 deadlines, C59 origin of the master key. *)
From Verif Require Import Base ListUtil HttpUrl EapTls EapTlsProps Eapol EapolProps ForwardSpec ForwardProofs ForwardStep Supplicant SupplicantSpec SupplicantProofs SupplicantInv SupplicantHist SupplicantTrack SupplicantProps.
Local Ltac Zify.zify_post_hook ::= idtac.

Definition ok_kick (en : entry) : Prop := (exists now e, t_op en = SKick now e) /\ t_ok en = true.
Lemma reset_ops c s o s' out ok : match o with SInit _ | SDeinit | SReconnect => True | _ => False end -> sstep c s o = Some (s', out, ok) -> s' = s \/ x_state s' = Idle.
Proof.
  destruct o as [g| |now e|f now e|f e|now e|p| |]; cbn [sstep]; intros HO; try contradiction; intros H.
  - inv1 H. destruct p as [s1 k1]. inv H. unfold init in E. inv1 E; [inv E; auto|]. inv1 E; [|inv E; auto]. inv1 E. destruct p as [own apie]. inv E. auto.
  - inv H. auto.
  - inv1 H. destruct p as [s1 k1]. inv H. unfold reconnect in E. destruct (x_cache s) as [[qp qs qb pp [qid|]]|]; inv E; auto.
Qed.
Lemma ok_kick_dec o out ok s : {ne : Z * env & o = SKick (fst ne) (snd ne) /\ ok = true} + {~ ok_kick (mkE o out ok s)}.
Proof.
  destruct o; try (right; intros ((n & e0 & Q) & _); discriminate). destruct ok; [left; exists (now, e); auto|right; intros (_ & Q); discriminate].
Qed.
Lemma kick_time c t : crypto_ok c -> trace c t -> nonterminal (x_state (current t)) = true ->
  exists a k b now e, t = a ++ k :: b /\ t_op k = SKick now e /\ t_ok k = true /\ Forall (fun x => ~ ok_kick x) b /\ x_hs (current t) = now.
Proof.
  intros CO. induction 1 as [|t o s' out ok HT IH HO ES]; intros NT; [discriminate|]. rewrite current_snoc in *. cbn [t_after] in *.
  assert (STAY : s' = current t \/ (nonterminal (x_state (current t)) = true /\ x_hs s' = x_hs (current t)) -> ~ ok_kick (mkE o out ok s') -> exists a k b now e, t ++ [mkE o out ok s'] = a ++ k :: b /\ t_op k = SKick now e /\ t_ok k = true /\ Forall (fun x => ~ ok_kick x) b /\ x_hs s' = now).
  { intros HS NK. destruct IH as (a & k & b & now & e & -> & Q1 & Q2 & Q3 & Q4); [destruct HS as [<-|[HS _]]; assumption|]. exists a, k, (b ++ [mkE o out ok s']), now, e.
    split; [rewrite <- app_assoc; reflexivity|]. split; [exact Q1|]. split; [exact Q2|]. split; [apply Forall_app; split; [exact Q3|constructor; [exact NK|constructor]]|]. destruct HS as [-> |[_ ->]]; exact Q4. }
  pose proof (sstep_track c (current t) o s' out ok CO (trace_inv c t CO HT) HO ES) as TR. pose proof (reset_ops c (current t) o s' out ok) as RO.
  assert (CASE : (match o with SInit _ | SDeinit | SReconnect => True | _ => False end) \/ track (current t) o s' ok) by (destruct o; auto).
  destruct CASE as [C1|(_ & _ & _ & _ & _ & T6)].
  - apply STAY; [|destruct o; try contradiction; intros ((n & e & Q) & _); discriminate]. left. destruct (RO C1 ES) as [Q|Q]; [exact Q|]. rewrite Q in NT. discriminate.
  - destruct (T6 NT) as [[Q1 Q2]|(now & e & -> & -> & Q)].
    + destruct (ok_kick_dec o out ok s') as [((n & e) & EO & EK)|NK]; [|apply STAY; auto]. cbn in EO. subst o ok.
      exists t, (mkE (SKick n e) out true s'), [], n, e. repeat (split; [reflexivity|]). split; [constructor|].
      exfalso. cbn [sstep] in ES. unfold kick in ES. destruct (x_state (current t)); try discriminate.
    + exists t, (mkE (SKick now e) out true s'), [], now, e. repeat (split; [reflexivity|]). split; [constructor|exact Q].
Qed.

(** A tick ten seconds after the last successful kick finds or leaves the supplicant
    idle, authenticated or failed: no handshake outlives its deadline, whatever was
    received in between. *)
Theorem wpa_deadline : forall c a k b tk t0 e0 now e, crypto_ok c -> history c (a ++ k :: b ++ [tk]) ->
  t_op k = SKick t0 e0 -> t_ok k = true -> Forall (fun x => ~ ok_kick x) b -> t_op tk = STick now e -> t0 + 10000 <= now ->
  x_state (t_after tk) = Idle \/ x_state (t_after tk) = Auth \/ x_state (t_after tk) = Failed.
Proof.
  intros c a k b tk t0 e0 now e CO HH OK1 OK2 NK OT LE. apply history_trace in HH. rewrite app_comm_cons, app_assoc in HH. destruct (trace_prefix _ _ _ _ HH) as (HT & _ & ES).
  set (s := current (a ++ k :: b)) in *. assert (NT : nonterminal (x_state s) = true -> x_hs s = t0).
  { intros N. destruct (kick_time c _ CO HT N) as (a' & k' & b' & n' & e' & EQ & Q1 & Q2 & Q3 & Q4). destruct (two_splits a k b a' k' b' EQ) as [(z & ->)|[(-> & _)|(z & ->)]].
    - exfalso. rewrite Forall_forall in NK. apply (NK k'); [apply in_or_app; right; left; reflexivity|]. split; [eauto|exact Q2].
    - rewrite OK1 in Q1. injection Q1 as <- <-. exact Q4.
    - exfalso. rewrite Forall_forall in Q3. apply (Q3 k); [apply in_or_app; right; left; reflexivity|]. split; [eauto|exact OK2]. }
  rewrite OT in ES. cbn [sstep] in ES. inv1 ES. destruct p as [s1 o1]. injection ES; intros; subst. unfold tick in E.
  destruct (nonterminal (x_state s)) eqn:N.
  - specialize (NT eq_refl). rewrite NT in E. replace (true && (t0 <? now) && (10000 <=? now - t0)) with true in E by lia. injection E as E _. rewrite <- E. auto.
  - cbn [andb] in E. destruct (x_state s) eqn:ST; try discriminate; injection E as E _; rewrite <- E; auto.
Qed.
Print Assumptions wpa_deadline.

Definition is_tick (en : entry) : Prop := exists now e, t_op en = STick now e.
(** Between two other calls, ticks send message 2 at most three times. *)
Theorem wpa_m2_bounded : forall c a ticks b, crypto_ok c -> history c (a ++ ticks ++ b) -> Forall is_tick ticks -> zlen (flat_map t_out ticks) <= 3.
Proof.
  intros c a ticks b CO HH. apply history_trace in HH. assert (G : Forall is_tick ticks -> trace c (a ++ ticks ++ b) -> zlen (flat_map t_out ticks) + x_m2_left (current (a ++ ticks)) <= x_m2_left (current a)).
  - clear HH. revert b. induction ticks as [|en ticks IH] using rev_ind; intros b HF HT; [rewrite app_nil_r; cbn; lia|]. apply Forall_app in HF. destruct HF as [HF HE]. inversion HE as [|? ? (now & e & OE) _]; subst.
    rewrite <- app_assoc in HT. cbn [app] in HT. specialize (IH (en :: b) HF HT). rewrite app_assoc in HT. destruct (trace_prefix _ _ _ _ HT) as (HT1 & _ & ES). rewrite OE in ES. cbn [sstep] in ES. inv1 ES. destruct p as [s1 o1]. injection ES as E1 E2 _.
    destruct (tick_ok c e (current (a ++ ticks)) now CO (trace_inv c _ CO HT1)) as (s2 & o2 & E3 & _ & _ & LE). rewrite E in E3. injection E3 as <- <-.
    rewrite app_assoc, current_snoc, flat_map_app, zlen_app. cbn [flat_map]. rewrite app_nil_r, <- E1, <- E2. lia.
  - intros HF. specialize (G HF HH). destruct (trace_inv c (a ++ ticks) CO) as [_ _ _ _ _ _ _ [M1 _]].
    { clear - HH. destruct b as [|x b]; [rewrite app_nil_r in HH; exact HH|]. rewrite app_assoc in HH. apply (trace_prefix _ _ _ _ HH). }
    destruct (trace_inv c a CO) as [_ _ _ _ _ _ _ [_ M2]]; [|lia]. clear - HH. destruct (ticks ++ b) as [|x r]; [rewrite app_nil_r in HH; exact HH|]. apply (trace_prefix _ _ _ _ HH).
Qed.
Print Assumptions wpa_m2_bounded.

(** ** Origin of the master key *)
Definition hash_ok (c : crypto) : Prop := forall a b h, cr_hash c a = Some h -> cr_hash c b = Some h -> a = b.
Definition no_reconnect (t : list entry) : Prop := Forall (fun x => t_op x <> SReconnect) t.
Definition mid_ok (x : entry) : Prop := match t_op x with SInit _ => t_ok x = false | SDeinit => False | _ => True end.

Definition src_inv (c : crypto) (t : list entry) (s : supp) : Prop :=
  exists g mid, last_init t g mid /\ f_mode (x_f s) = c_mode g /\ f_ssid (x_f s) = c_ssid g /\
  match c_mode g with
  | PSK => pmk_source c g mid (x_pmk s)
  | EAPTLS => (x_tls_done s = true -> exists m1 x1 m2 f1 n1 e1, mid = m1 ++ x1 :: m2 /\ t_op x1 = SRx f1 n1 e1 /\ e_tls_ok e1 = true /\ e_tls_done e1 = true) /\ (keyed s -> pmk_source c g mid (x_pmk s))
  | SAE => (x_state s = SaeConfirm -> exists m1 x1 m2 f1 e1, mid = m1 ++ x1 :: m2 /\ t_op x1 = SAuth f1 e1 /\ e_sae_derive e1 = Some (x_sae s)) /\ (keyed s \/ x_pmk_inst s = true -> pmk_source c g mid (x_pmk s))
  end.
Definition PInv (c : crypto) (t : list entry) : Prop :=
  let s := current t in
  (forall q h, x_cache s = Some q -> q_pp q = Some h -> exists pw, cr_hash c pw = Some h /\ cr_pmk c pw (q_ssid q) = Some (q_pmk q)) /\
  (forall h, f_pp (x_f s) = Some h -> f_mode (x_f s) = PSK /\ exists pw, cr_hash c pw = Some h /\ cr_pmk c pw (f_ssid (x_f s)) = Some (x_pmk s)) /\
  (f_send (x_f s) = true -> src_inv c t s) /\ (live s -> f_send (x_f s) = true).

Lemma source_mono c g mid pmk x : pmk_source c g mid pmk -> pmk_source c g (mid ++ [x]) pmk.
Proof.
  unfold pmk_source. destruct (c_mode g); [auto| |].
  - intros (m1 & m2 & x1 & x2 & f1 & n1 & e1 & f2 & n2 & e2 & msk & -> & A & B & D & E & F). exists m1, (m2 ++ [x]), x1, x2, f1, n1, e1, f2, n2, e2, msk. rewrite <- app_assoc. split; [reflexivity|]. split; [exact A|]. split; [exact B|]. split; [exact D|]. split; [apply in_or_app; auto|exact F].
  - intros [(y & A & B)|(m1 & m2 & x1 & x2 & f1 & e1 & f2 & e2 & id & -> & A & B & D & E)].
    + left. exists y. split; [apply in_or_app; auto|exact B].
    + right. exists m1, (m2 ++ [x]), x1, x2, f1, e1, f2, e2, id. rewrite <- app_assoc. split; [reflexivity|]. split; [exact A|]. split; [exact B|]. split; [apply in_or_app; auto|exact E].
Qed.
Lemma init_snoc t g mid x : last_init t g mid -> mid_ok x -> last_init (t ++ [x]) g (mid ++ [x]).
Proof.
  intros (a & en & -> & A & B & D) HX. exists a, en. rewrite <- app_assoc. split; [reflexivity|]. split; [exact A|]. split; [exact B|]. apply Forall_app. split; [exact D|constructor; [exact HX|constructor]].
Qed.
Lemma src_step c t o s' out ok : (match o with SInit _ | SDeinit | SReconnect => False | _ => True end) -> track (current t) o s' ok -> f_send (x_f (current t)) = true -> src_inv c t (current t) -> src_inv c (t ++ [mkE o out ok s']) s'.
Proof.
  intros HO (T1 & T2 & T3 & T4 & _ & _) FS (g & mid & LI & M1 & M2 & MC). set (x := mkE o out ok s'). assert (MX : mid_ok x) by (unfold mid_ok; cbn; destruct o; try contradiction; exact I).
  exists g, (mid ++ [x]). split; [apply init_snoc; assumption|]. rewrite T1. split; [exact M1|]. split; [exact M2|]. unfold pmk_step in T2. rewrite M1 in T2.
  destruct (c_mode g) eqn:CM.
  - apply source_mono. destruct T2 as [(-> & _)|[(f & n & e & msk & _ & Q & _)|[(f & e & _ & Q & _)|(p & _ & Q & _)]]]; try discriminate. exact MC.
  - destruct MC as [MC1 MC2]. split.
    + intros TD. destruct (T3 TD) as [Q|(f & n & e & -> & Q1 & Q2)].
      * destruct (MC1 Q) as (m1 & x1 & m2 & f1 & n1 & e1 & -> & Q1). exists m1, x1, (m2 ++ [x]), f1, n1, e1. rewrite <- app_assoc. auto.
      * exists mid, x, [], f, n, e. auto.
    + intros HK. destruct T2 as [(-> & _ & Q)|[(f & n & e & msk & -> & _ & TD & EM & MR & _)|[(f & e & _ & Q & _)|(p & _ & Q & _)]]]; try discriminate.
      * apply source_mono, MC2. destruct (Q HK) as [Q1|[Q1|[Q1 _]]]; [exact Q1|discriminate|discriminate].
      * destruct (MC1 TD) as (m1 & x1 & m2 & f1 & n1 & e1 & -> & Q1 & Q2 & Q3). unfold pmk_source. rewrite CM. exists m1, (m2 ++ [x]), x1, x, f1, n1, e1, f, n, e, msk. rewrite <- app_assoc.
        repeat (split; [first [reflexivity|assumption]|]). split; [apply in_or_app; right; left; reflexivity|]. split; [reflexivity|]. split; [exact EM|].
        unfold mread in MR. destruct (_ && _) in MR; [|discriminate]. injection MR as <-. reflexivity.
  - destruct MC as [MC1 MC2]. split.
    + intros TS. destruct (T4 TS) as [[Q1 Q2]|(f & e & -> & Q)].
      * destruct (MC1 Q1) as (m1 & x1 & m2 & f1 & e1 & -> & Q3). exists m1, x1, (m2 ++ [x]), f1, e1. rewrite <- app_assoc, Q2. auto.
      * exists mid, x, [], f, e. auto.
    + intros HK. destruct T2 as [(-> & QI & Q)|[(f & n & e & msk & _ & Q & _)|[(f & e & -> & _ & SC & EV & -> & ->)|(p & -> & _ & -> & ->)]]]; try discriminate.
      * apply source_mono, MC2. destruct HK as [HK|HK]; [|right; congruence]. destruct (Q HK) as [Q1|[Q1|[_ Q1]]]; [auto|discriminate|auto].
      * destruct (MC1 SC) as (m1 & x1 & m2 & f1 & e1 & -> & Q1 & Q2). unfold pmk_source. rewrite CM. right. exists m1, (m2 ++ [x]), x1, x, f1, e1, f, e, (snd (x_sae (current t))). rewrite <- app_assoc. rewrite <- surjective_pairing.
        repeat (split; [first [reflexivity|assumption]|]). split; [apply in_or_app; right; left; reflexivity|]. auto.
      * unfold pmk_source. rewrite CM. left. exists x. split; [apply in_or_app; right; left; reflexivity|]. auto.
Qed.
Lemma m3wait_send c e s f now s' o ok : rx_key c e s f now = Some (s', o, ok) -> x_state s = M1Wait -> x_state s' = M3Wait -> f_send (x_f s) = true.
Proof.
  unfold rx_key. intros H ST ST'. rewrite ST in H. inv1 H. destruct o0 as [k|]; [|inv H; congruence]. inv1 H; [inv H; congruence|]. inv1 H; [inv H; congruence|]. inv1 H. inv1 H. inv1 H. destruct h as [[s1 o1] k1].
  destruct k1; [|inv H; discriminate]. inv H. match goal with HX : handle_m1 _ _ _ _ _ = _ |- _ => rename HX into HM end. unfold handle_m1 in HM. destruct (negb _) in HM; [discriminate|]. cbv zeta in HM. destruct (e_snonce e); [|discriminate]. destruct (cr_ptk _ _ _ _ _ _ _) as [pp|] in HM; [|discriminate].
  match type of HM with obind (send_m2 c e ?x) _ = _ => destruct (send_m2 c e x) as [[o2 k2]|] eqn:HS end; cbn [obind] in HM; [|discriminate]. destruct k2; cbn [negb] in HM; [|discriminate]. unfold send_m2, send_key in HS. destruct (_ <? _) in HS; [discriminate|]. destruct (eapol_key_build _ _ _ _ _ _) as [[buf tt]|] in HS; cbn [obind] in HS; [|discriminate]. destruct tt; [|discriminate]. destruct (mread _ _ _) in HS; cbn [obind] in HS; [|discriminate]. destruct (cr_mic _ _ _ _) in HS; [|discriminate]. destruct (mwrite _ _ _) in HS; cbn [obind] in HS; [|discriminate]. cbn [x_f set_h] in HS. destruct (f_send (x_f s)); [reflexivity|discriminate].
Qed.
Lemma live_step c t o s' out ok : crypto_ok c -> SInv (current t) -> sop_ok o -> sstep c (current t) o = Some (s', out, ok) -> live s' ->
  x_f s' = x_f (current t) /\ (live (current t) \/ f_send (x_f (current t)) = true).
Proof.
  intros CO SI HO ES LV. destruct (sstep_ok c (current t) o CO SI HO) as (s1 & o1 & k1 & E & A & B). rewrite ES in E. injection E as <- <- <-.
  inversion B as [o0 s0 out0 QO QS|f now e sn p s0 out0 ST M1 RV SN PT OS F1 F2 F3 F4|o0 s0 sn F4|f now e idx key s0 ins out0 ST M3 INS OS F4 F1 F2 F3 F5|f now e idx key s0 ins out0 ST ST' G1 OS INS F1 F2 F3]; subst.
  - destruct (QS LV) as (E1 & E2 & E3). split; [exact E1|]. left. unfold live in *. rewrite <- E3. exact LV.
  - split; [exact F1|]. right. destruct F4 as [F4|F4]; [|destruct LV; congruence]. cbn [sstep] in ES. unfold supp_rx in ES. destruct (zlen f <? 4); [injection ES as <- _ _; congruence|]. destruct M1 as ((QL & _ & Q & _) & _). rewrite rd1_in in ES by lia. cbn [obind] in ES. rewrite Q in ES. cbn iota in ES. change (3 =? 0) with false in ES. cbn iota in ES.
    change (negb (3 =? 3)) with false in ES. cbn iota in ES. eapply m3wait_send; eauto.
  - destruct LV; congruence.
  - split; [exact F1|]. left. left. exact ST.
  - split; [exact F1|]. left. right. exact ST.
Qed.

Lemma pinv c t : crypto_ok c -> hash_ok c -> trace c t -> no_reconnect t -> PInv c t.
Proof.
  intros CO HK. induction 1 as [|t o s' out ok HT IH HO ES]; intros NR.
  { split; [discriminate|]. split; [discriminate|]. split; [discriminate|]. intros [H|H]; discriminate. }
  apply Forall_app in NR. destruct NR as [NR1 NR2]. inversion NR2 as [|? ? NR3 _]; subst. cbn in NR3. specialize (IH NR1). destruct IH as (I1 & I2 & I3 & I4).
  pose proof (trace_inv c t CO HT) as SI. unfold PInv. rewrite current_snoc. cbn [t_after]. set (x := mkE o out ok s').
  assert (CASE : (exists g, o = SInit g) \/ o = SDeinit \/ match o with SInit _ | SDeinit | SReconnect => False | _ => True end) by (destruct o; eauto; congruence).
  destruct CASE as [(g & ->)|[-> |HOP]].
  - cbn [sstep] in ES. destruct (init c (current t) g) as [[s1 k1]|] eqn:EI; cbn [obind] in ES; [|discriminate]. injection ES as <- <- <-. unfold init in EI. destruct (validate g) eqn:VG; cbn [negb] in EI.
    2: { injection EI as <- <-. split; [exact I1|]. split; [exact I2|]. split; [|exact I4]. intros FS. destruct (I3 FS) as (g0 & mid & LI & M1 & M2 & MC). exists g0, (mid ++ [x]). split; [apply init_snoc; [exact LI|reflexivity]|]. split; [exact M1|]. split; [exact M2|].
      destruct (c_mode g0) eqn:CM; [apply source_mono; exact MC| |].
      - destruct MC as [MC1 MC2]. split; [|intros Q; apply source_mono; auto]. intros TD. destruct (MC1 TD) as (m1 & x1 & m2 & f1 & n1 & e1 & -> & Q1). exists m1, x1, (m2 ++ [x]), f1, n1, e1. rewrite <- app_assoc. auto.
      - destruct MC as [MC1 MC2]. split; [|intros Q; apply source_mono; auto]. intros TD. destruct (MC1 TD) as (m1 & x1 & m2 & f1 & e1 & -> & Q1). exists m1, x1, (m2 ++ [x]), f1, e1. rewrite <- app_assoc. auto. }
    cbv zeta in EI. set (hit := match x_cache (current t) with Some q => bytes_eqb (q_ssid q) (c_ssid g) | None => false end) in *.
    set (cache := if hit then x_cache (current t) else None) in *.
    assert (CK : forall q h, cache = Some q -> q_pp q = Some h -> q_ssid q = c_ssid g /\ exists pw, cr_hash c pw = Some h /\ cr_pmk c pw (q_ssid q) = Some (q_pmk q)).
    { intros q h Q1 Q2. unfold cache, hit in Q1. destruct (x_cache (current t)) as [q0|] eqn:XC; [|discriminate]. destruct (bytes_eqb (q_ssid q0) (c_ssid g)) eqn:BE; [|discriminate]. injection Q1 as <-. apply bytes_eqb_eq in BE. split; [exact BE|]. apply (I1 q0 h eq_refl Q2). }
    match type of EI with match ?y with _ => _ end = _ => destruct y as [pmk|] eqn:EP end.
    2: { injection EI as <- <-. split; [discriminate|]. split; [discriminate|]. split; [discriminate|]. intros [H|H]; discriminate. }
    destruct (build_ies g) as [[own apie]|]; cbn [obind] in EI; [|discriminate]. injection EI as <- <-. cbn [x_cache x_f x_pmk f_pp f_mode f_ssid f_send].
    assert (SRC : c_mode g = PSK -> pmk_source c g [] pmk).
    { intros CM. unfold pmk_source. rewrite CM in *. destruct (c_psk g) as [p|] eqn:CP; [injection EP as <-; reflexivity|]. destruct (c_pass g) as [pw|] eqn:CW.
      2: { unfold validate in VG. rewrite CM, CP, CW, Bool.andb_false_r in VG. discriminate. }
      exists pw. split; [reflexivity|]. destruct (cr_hash c pw) as [h|] eqn:HP; [|exact EP]. destruct cache as [[qp qs qb [qh|] qid]|] eqn:EC; try exact EP. destruct (bytes_eqb h qh) eqn:BH; [|exact EP].
      apply bytes_eqb_eq in BH. subst qh. injection EP as <-. destruct (CK _ h eq_refl eq_refl) as (Q1 & pw' & Q2 & Q3). cbn in *. rewrite (HK pw pw' h HP Q2), <- Q1. exact Q3. }
    split; [intros q h Q1 Q2; destruct (CK q h Q1 Q2) as [_ Q]; exact Q|]. split.
    + intros h HP. destruct (c_mode g) eqn:CM; try discriminate. destruct (c_psk g) as [p|] eqn:CP; [discriminate|]. destruct (c_pass g) as [pw|] eqn:CW; [|discriminate]. split; [reflexivity|]. exists pw. split; [exact HP|].
      specialize (SRC eq_refl). unfold pmk_source in SRC. rewrite CM, CP, CW in SRC. destruct SRC as (pw' & Q & SRC). injection Q as <-. exact SRC.
    + split; [|intros [H|H]; discriminate]. intros _. exists g, []. split; [exists t, x; auto|]. split; [reflexivity|]. split; [reflexivity|].
      destruct (c_mode g) eqn:CM; [auto| |]; (split; [discriminate|intros Q]).
      * destruct Q as [Q|[Q|Q]]; discriminate.
      * destruct Q as [[Q|[Q|Q]]|Q]; discriminate.
  - cbn [sstep] in ES. injection ES as <- <- <-. split; [discriminate|]. split; [discriminate|]. split; [discriminate|]. intros [H|H]; discriminate.
  - pose proof (sstep_track c (current t) o s' out ok CO SI HO ES) as TR. assert (TK : track (current t) o s' ok) by (destruct o; try contradiction; exact TR). clear TR.
    pose proof TK as (T1 & T2 & _ & _ & T5 & _).
    assert (PK : forall h, f_pp (x_f (current t)) = Some h -> x_pmk s' = x_pmk (current t)).
    { intros h HP. destruct (I2 h HP) as [MO _]. unfold pmk_step in T2. rewrite MO in T2. destruct T2 as [(Q & _)|[(f & n & e & msk & _ & Q & _)|[(f & e & _ & Q & _)|(p & _ & Q & _)]]]; try discriminate. exact Q. }
    split; [|split; [|split]].
    + intros q h Q1 Q2. destruct T5 as [[T5|T5]|T5]; rewrite T5 in Q1; [eapply I1; eauto| |discriminate]. injection Q1 as <-. cbn in *. apply (I2 h Q2).
    + intros h HP. rewrite T1 in *. destruct (I2 h HP) as [MO (pw & Q1 & Q2)]. split; [exact MO|]. exists pw. split; [exact Q1|]. rewrite (PK h HP). exact Q2.
    + intros FS. rewrite T1 in FS. apply src_step; auto.
    + intros LV. destruct (live_step c t o s' out ok CO SI HO ES LV) as [Q1 [Q2|Q2]]; rewrite Q1; auto.
Qed.

(** Every handshake runs on the master key the configuration in force dictates: the
    configured PSK, PBKDF2 of the configured passphrase and SSID (cached or not), the
    MSK of a TLS handshake completed since, or a PMK installed by the caller or
    derived by an SAE exchange whose confirm verified. Not covered: histories calling
    pmksa_reconnect (see wpa_reconnect_any_mode_refuted). *)
Theorem wpa_pmk_source_partial : forall c a m1 b f sn p, crypto_ok c -> hash_ok c -> history c (a ++ m1 :: b) -> no_reconnect (a ++ m1 :: b) ->
  accepts_m1 c m1 f sn p -> x_state (t_after m1) = M3Wait -> exists g mid, last_init (a ++ [m1]) g mid /\ pmk_source c g mid (x_pmk (t_after m1)).
Proof.
  intros c a m1 b f sn p CO HK HH NR AC ST. apply history_trace in HH. assert (HT : trace c (a ++ [m1])).
  { destruct b as [|y b]; [exact HH|]. change (m1 :: y :: b) with ([m1] ++ y :: b) in HH. rewrite app_assoc in HH. apply (trace_prefix _ _ _ _ HH). }
  assert (NR' : no_reconnect (a ++ [m1])). { unfold no_reconnect in *. apply Forall_app in NR. destruct NR as [N1 N2]. apply Forall_app. split; [exact N1|]. inversion N2; subst. constructor; [assumption|constructor]. }
  destruct (pinv c _ CO HK HT NR') as (_ & _ & I3 & I4). rewrite current_snoc in *. destruct (I3 (I4 (or_introl ST))) as (g & mid & LI & M1 & M2 & MC). exists g, mid. split; [exact LI|].
  assert (KY : keyed (t_after m1)) by (unfold keyed; auto). destruct (c_mode g); [exact MC|apply MC; exact KY|apply MC; auto].
Qed.
Print Assumptions wpa_pmk_source_partial.
