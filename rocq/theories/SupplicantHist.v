(** Histories of the supplicant: the invariant of the current handshake. *)
From Verif Require Import Base ListUtil HttpUrl EapTls EapTlsProps Eapol EapolProps ForwardSpec ForwardProofs ForwardStep Supplicant SupplicantSpec SupplicantProofs SupplicantInv.
Local Ltac Zify.zify_post_hook ::= idtac.

Inductive trace (c : crypto) : list entry -> Prop :=
| tr0 : trace c []
| tr1 t o s' out ok : trace c t -> sop_ok o -> sstep c (current t) o = Some (s', out, ok) -> trace c (t ++ [mkE o out ok s']).
Lemma current_snoc t en : current (t ++ [en]) = t_after en.
Proof. unfold current. rewrite rev_app_distr. reflexivity. Qed.
Lemma srun_trace c os : forall t0 t, trace c t0 -> Forall sop_ok os -> srun c (current t0) os = Some t -> trace c (t0 ++ t).
Proof.
  induction os as [|o os IH]; intros t0 t HT HO E; cbn [srun] in E. { injection E as <-. rewrite app_nil_r. exact HT. }
  inversion HO as [|? ? H1 H2]; subst. destruct (sstep c (current t0) o) as [[[s' out] ok]|] eqn:ES; cbn [obind] in E; [|discriminate].
  destruct (srun c s' os) as [t'|] eqn:ER; cbn [obind] in E; [|discriminate]. injection E as <-.
  change (mkE o out ok s' :: t') with ([mkE o out ok s'] ++ t'). rewrite app_assoc. apply IH; [|exact H2|].
  - apply tr1; assumption.
  - rewrite current_snoc. exact ER.
Qed.
Lemma history_trace c t : history c t -> trace c t.
Proof. intros (os & HO & E). apply (srun_trace c os [] t (tr0 c) HO E). Qed.
Lemma rev_case {A} (l : list A) : l = [] \/ exists r x, l = r ++ [x].
Proof. destruct (rev l) as [|x r] eqn:E; [left|right; exists (rev r), x]; rewrite <- (rev_involutive l), E; reflexivity. Qed.
Lemma trace_prefix c t en r : trace c (t ++ en :: r) -> trace c t /\ sop_ok (t_op en) /\ sstep c (current t) (t_op en) = Some (t_after en, t_out en, t_ok en).
Proof.
  intros H. remember (t ++ en :: r) as u eqn:E. revert t en r E. induction H as [|u o s' out ok HT IH HO ES]; intros t en r E; [destruct t; discriminate|].
  destruct (rev_case r) as [-> |(r' & x & ->)].
  - change (t ++ [en]) with (t ++ [en]) in E. apply app_inj_tail in E. destruct E as [-> <-]. auto.
  - rewrite app_comm_cons, app_assoc in E. apply app_inj_tail in E. destruct E as [E _]. apply (IH t en r' E).
Qed.
Lemma trace_inv c t : crypto_ok c -> trace c t -> SInv (current t).
Proof.
  intros CO. induction 1 as [|t o s' out ok HT IH HO ES]; [apply s_zero_inv|]. rewrite current_snoc. cbn [t_after].
  destruct (sstep_ok c (current t) o CO IH HO) as (s1 & o1 & k1 & E & A & _). rewrite ES in E. injection E as -> _ _. exact A.
Qed.
Lemma step_kind c t en r : crypto_ok c -> trace c (t ++ en :: r) -> kind c (current t) (t_op en) (t_after en) (t_out en).
Proof.
  intros CO H. destruct (trace_prefix c t en r H) as (HT & HO & ES). destruct (sstep_ok c (current t) (t_op en) CO (trace_inv c t CO HT) HO) as (s1 & o1 & k1 & E & _ & B).
  rewrite ES in E. injection E as -> -> _. exact B.
Qed.

(** The handshake in progress: since the last accepted message 1. *)
Definition no_installs (en : entry) : Prop := forall b i k r, ~ In (OInstall b i k r) (t_out en).
Definition epoch (c : crypto) (t : list entry) (a1 : list entry) (m1 : entry) (a2 : list entry) (f1 sn : list Z) (p : ptk_t) : Prop :=
  t = a1 ++ m1 :: a2 /\ accepts_m1 c m1 f1 sn p /\ Forall (fun en => ~ draws en) a2 /\ Forall connected_states (m1 :: a2) /\
  let s := current t in
  x_f s = x_f (t_after m1) /\ h_ptk (x_h s) = p /\ h_anonce (x_h s) = nonce f1 /\ counter f1 <= num (h_replay (x_h s)) /\
  (forall en b i k, In en a2 -> installed en b i k -> exists f now e, t_op en = SRx f now e /\ counter f <= num (h_replay (x_h s))) /\
  (x_state s = M3Wait -> Forall no_installs a2) /\
  (x_state s = Auth -> exists m3 f3 now e idx gtk, In m3 a2 /\ t_op m3 = SRx f3 now e /\ x_state (t_after m3) = Auth /\ good_m3 c (x_f (t_after m1)) p f1 f3 idx gtk).

Lemma quiet_no_draw out : Forall is_send out -> forall n, ~ In (ODraw n) out.
Proof. intros H n HI. rewrite Forall_forall in H. apply (H _ HI). Qed.
Lemma quiet_no_install out : Forall is_send out -> forall b i k r, ~ In (OInstall b i k r) out.
Proof. intros H b i k r HI. rewrite Forall_forall in H. apply (H _ HI). Qed.

Lemma m3_good c s f1 f p idx key m1 : m3_now c s f idx key -> h_ptk (x_h s) = p -> h_anonce (x_h s) = nonce f1 -> counter f1 <= num (h_replay (x_h s)) -> x_f s = x_f (t_after m1) ->
  good_m3 c (x_f (t_after m1)) p f1 f idx key.
Proof.
  intros (A & B & D & E & F & G) <- HN HC HF. rewrite <- HF. split; [exact A|]. split; [exact B|]. split; [congruence|]. split; [lia|]. split; [rewrite cmac_is; exact F|exact G].
Qed.

Lemma epoch_inv c t : crypto_ok c -> trace c t -> live (current t) -> exists a1 m1 a2 f1 sn p, epoch c t a1 m1 a2 f1 sn p.
Proof.
  intros CO. induction 1 as [|t o s' out ok HT IH HO ES]; intros LV; [destruct LV as [H|H]; discriminate|].
  rewrite current_snoc in LV. cbn [t_after] in LV. set (en := mkE o out ok s').
  destruct (sstep_ok c (current t) o CO (trace_inv c t CO HT) HO) as (s1 & o1 & k1 & E & A & B). rewrite ES in E. injection E as <- <- <-.
  unfold epoch. rewrite current_snoc. change (t_after en) with s'. change (t_after (mkE o out ok s')) with s'.
  inversion B as [o0 s0 out0 QO QS|f now e sn p s0 out0 ST M1 RV SN PT OS F1 F2 F3 F4|o0 s0 sn F4|f now e idx key s0 ins out0 ST M3 INS OS F4 F1 F2 F3 F5|f now e idx key s0 ins out0 ST ST' G1 OS INS F1 F2 F3]; subst.
  - destruct (QS LV) as (E1 & E2 & E3). assert (LO : live (current t)) by (unfold live in *; rewrite E3 in LV; exact LV).
    destruct (IH LO) as (a1 & m1 & a2 & f1 & sn & p & EQ & AC & ND & CN & P1 & P2 & P3 & P4 & P5 & P6 & P7). exists a1, m1, (a2 ++ [en]), f1, sn, p.
    split; [rewrite EQ at 1; rewrite <- app_assoc; reflexivity|]. split; [exact AC|]. split; [apply Forall_app; split; [exact ND|constructor; [|constructor]]; intros (n & HN); exact (quiet_no_draw out QO n HN)|].
    split; [rewrite app_comm_cons; apply Forall_app; split; [exact CN|constructor; [exact LV|constructor]]|].
    rewrite E1, E2, E3. split; [exact P1|]. split; [exact P2|]. split; [exact P3|]. split; [exact P4|]. split; [|split].
    + intros en' b i k HI HX. apply in_app_or in HI. destruct HI as [HI|[<-|[]]]; [eapply P5; eauto|]. exfalso. exact (quiet_no_install out QO b i k true HX).
    + intros HS. apply Forall_app. split; [auto|]. constructor; [|constructor]. intros b i k r. apply (quiet_no_install out QO).
    + intros HS. destruct (P7 HS) as (m3 & f3 & now & e & idx & gtk & Q1 & Q2). exists m3, f3, now, e, idx, gtk. split; [apply in_or_app; auto|exact Q2].
  - destruct F4 as [F4|F4]; [|destruct LV as [H|H]; congruence]. exists t, en, [], f, sn, p.
    split; [reflexivity|]. split.
    { split; [exists now, e; reflexivity|]. split; [exact M1|]. split; [left; reflexivity|]. split.
      - intros b i k r [HI|HI]; [discriminate|]. exact (quiet_no_install out0 OS b i k r HI).
      - cbn [t_after en]. rewrite F1, F2. split; [exact RV|]. rewrite cmac_is. exact PT. }
    split; [constructor|]. split; [constructor; [left; exact F4|constructor]|]. rewrite F3. cbn [h_ptk h_anonce h_replay]. split; [reflexivity|]. split; [reflexivity|]. split; [reflexivity|].
    split; [unfold counter; lia|]. split; [intros ? ? ? ? []|]. split; [constructor|]. congruence.
  - destruct LV as [H|H]; congruence.
  - destruct F4 as [F4|F4]; [|destruct LV as [H|H]; congruence]. specialize (F5 F4).
    destruct (IH (or_introl ST)) as (a1 & m1 & a2 & f1 & sn & p & EQ & AC & ND & CN & P1 & P2 & P3 & P4 & P5 & P6 & P7). exists a1, m1, (a2 ++ [en]), f1, sn, p.
    split; [rewrite EQ at 1; rewrite <- app_assoc; reflexivity|]. split; [exact AC|]. split.
    { apply Forall_app; split; [exact ND|constructor; [|constructor]]. intros (n & HN). apply in_app_or in HN. destruct HN as [HN|HN]; [|exact (quiet_no_draw out0 OS n HN)].
      destruct INS as [-> |[(r & ->)|(r & ->)]]; cbn in HN; intuition discriminate. }
    split; [rewrite app_comm_cons; apply Forall_app; split; [exact CN|constructor; [right; exact F4|constructor]]|].
    pose proof (m3_good c (current t) f1 f p idx key m1 M3 P2 P3 P4 P1) as GM. destruct M3 as (_ & _ & _ & CT & _).
    rewrite F1, F2, F3, F5. split; [exact P1|]. split; [exact P2|]. split; [exact P3|]. split; [fold (counter f); lia|]. split; [|split; [congruence|]].
    + intros en' b i k HI HX. fold (counter f). apply in_app_or in HI. destruct HI as [HI|[<-|[]]]; [|exists f, now, e; split; [reflexivity|lia]].
      destruct (P5 en' b i k HI HX) as (f' & now' & e' & Q1 & Q2). exists f', now', e'. split; [exact Q1|lia].
    + intros _. exists en, f, now, e, idx, key. split; [apply in_or_app; right; left; reflexivity|]. split; [reflexivity|]. split; [exact F4|exact GM].
  - destruct (IH (or_intror ST)) as (a1 & m1 & a2 & f1 & sn & p & EQ & AC & ND & CN & P1 & P2 & P3 & P4 & P5 & P6 & P7). exists a1, m1, (a2 ++ [en]), f1, sn, p.
    split; [rewrite EQ at 1; rewrite <- app_assoc; reflexivity|]. split; [exact AC|]. split.
    { apply Forall_app; split; [exact ND|constructor; [|constructor]]. intros (n & HN). apply in_app_or in HN. destruct HN as [HN|HN]; [|exact (quiet_no_draw out0 OS n HN)].
      destruct INS as [[[-> | ->] _]|[-> _]]; cbn in HN; intuition discriminate. }
    split; [rewrite app_comm_cons; apply Forall_app; split; [exact CN|constructor; [right; exact ST'|constructor]]|].
    destruct G1 as (_ & _ & CT & _). assert (MONO : num (h_replay (x_h (current t))) <= num (h_replay (x_h s'))) by (destruct INS as [[_ ->]|[_ ->]]; [fold (counter f); lia|lia]).
    rewrite F1, F2, F3. split; [exact P1|]. split; [exact P2|]. split; [exact P3|]. split; [lia|]. split; [|split; [congruence|]].
    + intros en' b i k HI HX. apply in_app_or in HI. destruct HI as [HI|[<-|[]]].
      * destruct (P5 en' b i k HI HX) as (f' & now' & e' & Q1 & Q2). exists f', now', e'. split; [exact Q1|lia].
      * exists f, now, e. split; [reflexivity|]. destruct INS as [[_ ->]|[-> _]]; [unfold counter; lia|]. exfalso. cbn in HX. destruct HX as [HX|HX]; [discriminate|]. exact (quiet_no_install out0 OS b i k true HX).
    + intros _. destruct (P7 ST) as (m3 & f3 & now' & e' & idx' & gtk & Q1 & Q2). exists m3, f3, now', e', idx', gtk. split; [apply in_or_app; auto|exact Q2].
Qed.

(** ** Nonces between pairwise installs *)
Fixpoint armed (b : bool) (l : list sout) : option bool :=
  match l with
  | [] => Some b
  | ODraw _ :: l => armed true l
  | OInstall true _ _ _ :: l => if b then armed false l else None
  | _ :: l => armed b l
  end.
Lemma armed_app b l1 l2 : armed b (l1 ++ l2) = match armed b l1 with Some b' => armed b' l2 | None => None end.
Proof. revert b. induction l1 as [|[n|f|q|[|] i k r] l1 IH]; intros b; cbn; try apply IH; [reflexivity|]. destruct b; [apply IH|reflexivity]. Qed.
Lemma armed_quiet b l : Forall is_send l -> armed b l = Some b.
Proof. induction 1 as [|x l H HL IH]; [reflexivity|]. destruct x; cbn in *; try contradiction; exact IH. Qed.
Definition events (t : list entry) : list sout := flat_map t_out t.
Lemma events_snoc t en : events (t ++ [en]) = events t ++ t_out en.
Proof. unfold events. rewrite flat_map_app. cbn. rewrite app_nil_r. reflexivity. Qed.
Lemma armed_inv c t : crypto_ok c -> trace c t -> exists b, armed false (events t) = Some b /\ (x_state (current t) = M3Wait -> b = true).
Proof.
  intros CO. induction 1 as [|t o s' out ok HT IH HO ES]; [exists false; split; [reflexivity|discriminate]|].
  rewrite events_snoc, armed_app, current_snoc. cbn [t_out t_after]. destruct IH as (b & -> & IB).
  destruct (sstep_ok c (current t) o CO (trace_inv c t CO HT) HO) as (s1 & o1 & k1 & E & A & B). rewrite ES in E. injection E as <- <- <-.
  inversion B as [o0 s0 out0 QO QS|f now e sn p s0 out0 ST M1 RV SN PT OS F1 F2 F3 F4|o0 s0 sn F4|f now e idx key s0 ins out0 ST M3 INS OS F4 F1 F2 F3 F5|f now e idx key s0 ins out0 ST ST' G1 OS INS F1 F2 F3]; subst.
  - rewrite armed_quiet by exact QO. exists b. split; [reflexivity|]. intros HS. apply IB. destruct (QS (or_introl HS)) as (_ & _ & Q). congruence.
  - cbn [armed]. rewrite armed_quiet by exact OS. exists true. auto.
  - cbn [armed]. exists true. auto.
  - specialize (IB ST). subst b. destruct INS as [-> |[(r & ->)|(r & ->)]]; cbn [app armed]; rewrite armed_quiet by exact OS; eexists; (split; [reflexivity|]); [auto|destruct F4; congruence|destruct F4; congruence].
  - destruct INS as [[[-> | ->] _]|[-> _]]; cbn [app armed]; rewrite armed_quiet by exact OS; exists b; (split; [reflexivity|congruence]).
Qed.
Lemma in_dec_draw (m : list sout) : (exists n, In (ODraw n) m) \/ (forall n, ~ In (ODraw n) m).
Proof.
  induction m as [|x m IH]; [right; intros n []|]. destruct IH as [(n & H)|H]; [left; exists n; right; exact H|].
  destruct x as [n|f|q|b i k r]; [left; exists n; left; reflexivity| | |]; right; intros n [E|E]; try discriminate; exact (H n E).
Qed.
Lemma armed_between l1 : forall b, armed b l1 <> None -> forall i k r m i' k' r' l3, l1 = OInstall true i k r :: m ++ OInstall true i' k' r' :: l3 -> exists n, In (ODraw n) m.
Proof.
  intros b HN i k r m i' k' r' l3 ->. cbn [armed] in HN. destruct b; [|congruence]. rewrite armed_app in HN.
  assert (K : forall m, (forall n, ~ In (ODraw n) m) -> armed false m = Some false \/ armed false m = None).
  { clear. induction m as [|[n|f|q|[|] i k r] m IH]; intros H; cbn; auto; try (apply IH; intros n' HI; apply (H n'); right; exact HI). exfalso. apply (H n). left. reflexivity. }
  destruct (in_dec_draw m) as [Y|N]; [exact Y|]. exfalso. destruct (K m N) as [-> | ->] in HN; [cbn in HN|]; congruence.
Qed.
