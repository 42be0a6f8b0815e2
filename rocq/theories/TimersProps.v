(** C07: timers fire in deadline order, exactly once; cancelled timers never fire.
    Specification: a set of pending timers; nothing of the heap is mentioned. *)
From Verif Require Import Base Timers TimersProofs.
From Coq Require Import Permutation.
Local Ltac Zify.zify_post_hook ::= idtac.

(** ** Specification *)
Inductive top :=
| Arm (deadline arg : Z)     (* request a timer *)
| Cancel (id : Z)            (* cancel by handle *)
| Poll (now : Z).            (* ask for one due timer *)
Inductive tout :=
| OArm (id : Z)              (* handle, 0 = refused *)
| OCancel
| OPoll (fired : option timer).

Definition without (id : Z) (P : list timer) : list timer := filter (fun t => negb (t_id t =? id)) P.

(** [tstep cap (P, n) op out (P', n')]: P is the set of pending timers, n the
    number of timers armed so far. *)
Inductive tstep (cap : nat) : list timer * Z -> top -> tout -> list timer * Z -> Prop :=
| ts_arm P n e a : (length P < cap)%nat ->
    tstep cap (P, n) (Arm e a) (OArm (n + 1)) ({| t_id := n + 1; t_exp := e; t_arg := a |} :: P, n + 1)
| ts_full P n e a : length P = cap -> tstep cap (P, n) (Arm e a) (OArm 0) (P, n)
| ts_cancel P n id : tstep cap (P, n) (Cancel id) OCancel (without id P, n)
| ts_fire P n now t : In t P -> t_exp t <= now -> (forall x, In x P -> t_exp t <= t_exp x) ->
    tstep cap (P, n) (Poll now) (OPoll (Some t)) (without (t_id t) P, n)
| ts_idle P n now : (forall x, In x P -> now < t_exp x) ->
    tstep cap (P, n) (Poll now) (OPoll None) (P, n).
Inductive tsteps (cap : nat) : list timer * Z -> list (top * tout) -> list timer * Z -> Prop :=
| tss_nil s : tsteps cap s [] s
| tss_cons s s' s'' op out h : tstep cap s op out s' -> tsteps cap s' h s'' -> tsteps cap s ((op, out) :: h) s''.

(** ** The implementation: the model functions driven by the same operations. *)
Definition timpl_step (cap : nat) (s : list timer * Z) (op : top) : (list timer * Z) * tout :=
  match op with
  | Arm e a => let '((l, c), id) := timers_binheap_insert cap (fst s) (snd s) e a in ((l, c), OArm id)
  | Cancel id => ((timer_binheap_cancel (fst s) id, snd s), OCancel)
  | Poll now => let '(l, r) := timer_due (fst s) now in ((l, snd s), OPoll r)
  end.
Fixpoint timpl (cap : nat) (s : list timer * Z) (ops : list top) : (list timer * Z) * list (top * tout) :=
  match ops with
  | [] => (s, [])
  | op :: ops => let '(s, o) := timpl_step cap s op in let '(s, h) := timpl cap s ops in (s, (op, o) :: h)
  end.
Definition tinit : list timer * Z := ([], 1).

(** Deadlines are positive: a zero deadline is the code's own tombstone mark. *)
Definition top_ok (op : top) : Prop := match op with Arm e _ => 0 < e | _ => True end.

(** ** Proofs *)
Definition TR (s : list timer * Z) (q : list timer * Z) : Prop :=
  Heap (fst s) /\ Permutation (fst s) (fst q) /\ snd s = snd q + 1 /\ 0 <= snd q /\
  (forall x, In x (fst q) -> 0 < t_exp x /\ 0 < t_id x <= snd q) /\ NoDup (map t_id (fst q)).

Lemma without_in id P x : In x (without id P) <-> In x P /\ t_id x <> id.
Proof.
  unfold without. rewrite filter_In. destruct (t_id x =? id) eqn:E; cbn [negb].
  - apply Z.eqb_eq in E. intuition (congruence || discriminate).
  - apply Z.eqb_neq in E. intuition.
Qed.
Lemma without_nodup id P : NoDup (map t_id P) -> NoDup (map t_id (without id P)).
Proof.
  induction P as [|a P IH]; cbn; intros H; [constructor|]. inversion H as [|? ? Hn Hd]; subst.
  destruct (negb (t_id a =? id)); [|auto]. cbn. constructor; [|auto].
  intros Hin. apply Hn. apply in_map_iff in Hin as (y & Hy & Hin). apply in_map_iff. exists y.
  split; [assumption|]. apply without_in in Hin. tauto.
Qed.
Lemma without_none id P : (forall x, In x P -> t_id x <> id) -> without id P = P.
Proof.
  induction P as [|a P IH]; cbn; intros H; [reflexivity|]. destruct (t_id a =? id) eqn:E.
  - apply Z.eqb_eq in E. exfalso. apply (H a); auto.
  - cbn. f_equal. apply IH. intros; apply H; auto.
Qed.
Lemma without_perm id P Q : Permutation P Q -> Permutation (without id P) (without id Q).
Proof.
  induction 1; cbn.
  - constructor.
  - destruct (negb _); [apply perm_skip; assumption|assumption].
  - destruct (negb (t_id y =? id)), (negb (t_id x =? id)); try apply Permutation_refl. apply perm_swap.
  - eapply Permutation_trans; eassumption.
Qed.
Lemma without_remove t l P : Permutation P (t :: l) -> NoDup (map t_id P) -> Permutation l (without (t_id t) P).
Proof.
  intros HP ND. assert (ND' : NoDup (map t_id (t :: l))).
  { eapply Permutation_NoDup; [|exact ND]. apply Permutation_map. assumption. }
  inversion ND' as [|? ? Hn Hd]; subst.
  eapply Permutation_trans; [|symmetry; apply without_perm; exact HP].
  change (without (t_id t) (t :: l)) with (if negb (t_id t =? t_id t) then t :: without (t_id t) l else without (t_id t) l).
  rewrite Z.eqb_refl. cbn [negb]. rewrite without_none; [apply Permutation_refl|].
  intros x Hx E. apply Hn. rewrite <- E. apply in_map. assumption.
Qed.

Lemma TR_live s q : TR s q -> Permutation (live (fst s)) (fst q) /\ exps_ok (fst s) /\ live (fst s) = fst s.
Proof.
  intros (HH & HP & _ & _ & HX & _).
  assert (L : live (fst s) = fst s).
  { apply live_id. intros x Hx E. eapply Permutation_in in Hx; [|exact HP]. specialize (HX x Hx). lia. }
  rewrite L. split; [assumption|]. split; [|reflexivity]. intros x Hx. eapply Permutation_in in Hx; [|exact HP]. specialize (HX x Hx). lia.
Qed.

Lemma timpl_step_ok cap s q op : TR s q -> (length (fst q) <= cap)%nat -> top_ok op -> snd q + 1 < 4294967295 ->
  exists q' out, snd (timpl_step cap s op) = out /\ tstep cap q op out q' /\ TR (fst (timpl_step cap s op)) q' /\
     (length (fst q') <= cap)%nat /\ snd q' <= snd q + (match op with Arm _ _ => 1 | _ => 0 end) /\ snd q <= snd q'.
Proof.
  intros HR HC HO HN. destruct (TR_live s q HR) as (HLP & HE & HLid).
  destruct s as [l c], q as [P n]. cbn [fst snd] in *. destruct HR as (HH & HP & Hc & Hn & HX & ND). cbn [fst snd] in *.
  destruct op as [e a|id|now]; cbn [timpl_step fst snd].
  - cbn in HO. destruct (insert_spec cap l c e a HH HE) as (l' & c' & id & EQ & HH' & D). rewrite EQ.
    assert (Ec : (if c =? 0 then 1 else c) = c) by (destruct (c =? 0) eqn:Q; [apply Z.eqb_eq in Q; lia|reflexivity]).
    rewrite Ec in D. assert (HLen : length (live l) = length P) by (apply Permutation_length; assumption).
    destruct D as [(D1 & -> & D2 & ->)|(D1 & -> & -> & D2)].
    + exists (P, n), (OArm 0). split; [reflexivity|]. split; [apply ts_full; lia|].
      split; [|cbn; split; [lia|split; lia]]. split; [assumption|]. cbn [fst snd].
      split; [eapply Permutation_trans; [symmetry; exact D2|assumption]|]. auto.
    + exists ({| t_id := n + 1; t_exp := e; t_arg := a |} :: P, n + 1), (OArm (n + 1)).
      split; [cbn; congruence|]. split; [apply ts_arm; lia|].
      split; [|cbn [fst snd length]; split; [lia|split; lia]].
      split; [assumption|]. cbn [fst snd]. split.
      { rewrite Hc in D2. eapply Permutation_trans; [symmetry; exact D2|]. apply perm_skip. assumption. }
      split; [unfold u32; rewrite Z.mod_small; lia|]. split; [lia|]. split.
      * intros x [<- |Hx]; [cbn; lia|]. specialize (HX x Hx). lia.
      * cbn. constructor; [|assumption]. intros Hin. apply in_map_iff in Hin as (y & Hy & Hin).
        specialize (HX y Hin). lia.
  - destruct (cancel_spec l id HH) as [HH' D]. exists (without id P, n), OCancel.
    split; [reflexivity|]. split; [constructor|].
    assert (Hlen : (length (without id P) <= length P)%nat).
    { unfold without. clear. induction P as [|a P IH]; cbn; [lia|]. destruct (negb _); cbn; lia. }
    split; [|cbn [fst snd]; split; [lia|split; lia]]. split; [assumption|]. cbn [fst snd].
    split.
    + destruct D as [[D1 D2]|(t & D1 & D2)].
      * rewrite D2, without_none; [assumption|]. intros x Hx. apply D1. eapply Permutation_in; [symmetry; exact HP|assumption].
      * rewrite <- D1. apply without_remove; [|assumption]. rewrite D1. eapply Permutation_trans; [symmetry; exact HP|exact D2].
    + split; [assumption|]. split; [assumption|]. split; [|apply without_nodup; assumption].
      intros x Hx. apply without_in in Hx. apply HX. tauto.
  - destruct (due_spec l now HH HE) as (l' & r & EQ & HH' & D). rewrite EQ. destruct r as [t|].
    + destruct D as (D1 & D2 & D3). rewrite HLid in D1, D3.
      exists (without (t_id t) P, n), (OPoll (Some t)). split; [reflexivity|].
      assert (HPt : Permutation P (t :: l')) by (eapply Permutation_trans; [symmetry; exact HP|exact D1]).
      split.
      { constructor; [|assumption|].
        - eapply Permutation_in; [symmetry; exact HPt|left; reflexivity].
        - intros x Hx. apply D3. eapply Permutation_in; [symmetry; exact HP|assumption]. }
      assert (Hlen : (length (without (t_id t) P) <= length P)%nat).
      { unfold without. clear. induction P as [|a P IH]; cbn; [lia|]. destruct (negb _); cbn; lia. }
      split; [|cbn [fst snd]; split; [lia|split; lia]]. split; [assumption|]. cbn [fst snd].
      split; [apply without_remove; assumption|]. split; [assumption|]. split; [assumption|].
      split; [|apply without_nodup; assumption]. intros x Hx. apply without_in in Hx. apply HX. tauto.
    + destruct D as (D1 & D2). rewrite HLid in D1, D2. exists (P, n), (OPoll None). split; [reflexivity|].
      split. { constructor. intros x Hx. apply D2. eapply Permutation_in; [symmetry; exact HP|assumption]. }
      split; [|cbn; split; [lia|split; lia]]. split; [assumption|]. cbn [fst snd].
      split; [eapply Permutation_trans; [symmetry; exact D1|assumption]|]. auto.
Qed.

Lemma timpl_refines cap : forall ops s q, TR s q -> (length (fst q) <= cap)%nat -> Forall top_ok ops ->
  snd q + zlen ops < 4294967295 ->
  exists q', tsteps cap q (snd (timpl cap s ops)) q' /\ TR (fst (timpl cap s ops)) q' /\ (length (fst q') <= cap)%nat.
Proof.
  induction ops as [|op ops IH]; intros s q HR HC HO HN.
  - exists q. split; [constructor|]. auto.
  - inversion HO as [|? ? HO1 HO2]; subst. rewrite zlen_cons in HN. pose proof (zlen_nonneg ops).
    destruct (timpl_step_ok cap s q op HR HC HO1 ltac:(lia)) as (q' & out & E & HS & HR' & HC' & HN' & _).
    cbn [timpl]. destruct (timpl_step cap s op) as [s1 o1] eqn:ES. cbn [fst snd] in *. subst o1.
    assert (HN2 : snd q' + zlen ops < 4294967295) by (destruct op; lia).
    destruct (IH s1 q' HR' HC' HO2 HN2) as (q'' & T & R & C).
    destruct (timpl cap s1 ops) as [s2 h2]. cbn [fst snd] in *. exists q''. split; [econstructor; eassumption|]. auto.
Qed.

(** ** Theorems *)

(** Every history (of fewer than 2^32 - 1 operations) of the heap is a history of the
    specification, and the heap's contents are the pending set. *)
Theorem timers_refine_pending_set cap ops :
  Forall top_ok ops -> zlen ops < 4294967295 ->
  exists P n, tsteps cap ([], 0) (snd (timpl cap tinit ops)) (P, n) /\
              Permutation (fst (fst (timpl cap tinit ops))) P /\ (length P <= cap)%nat.
Proof.
  intros HO HN.
  assert (HR : TR tinit ([], 0)).
  { split; [intros k Hk; cbn in Hk; lia|]. cbn. split; [constructor|]. split; [reflexivity|]. split; [lia|].
    split; [intros x []|constructor]. }
  destruct (timpl_refines cap ops tinit ([], 0) HR ltac:(cbn; lia) HO HN) as ([P n] & T & R & C).
  exists P, n. split; [assumption|]. destruct R as (_ & HP & _). auto.
Qed.

Definition fires (id : Z) (e : top * tout) : Prop :=
  match e with (Poll _, OPoll (Some t)) => t_id t = id | _ => False end.

Definition SI (s : list timer * Z) : Prop := (forall x, In x (fst s) -> 0 < t_id x <= snd s) /\ 0 <= snd s.
Lemma tstep_SI cap s op o s' : tstep cap s op o s' -> SI s -> SI s' /\ snd s <= snd s'.
Proof.
  intros H [H1 H2]. inversion H; subst; cbn [fst snd] in *; (split; [|lia]); split; cbn [fst snd]; try lia; try assumption;
    intros x Hx.
  - destruct Hx as [<- |Hx]; [cbn; lia|]. specialize (H1 x Hx). lia.
  - apply without_in in Hx. apply H1. tauto.
  - apply without_in in Hx. apply H1. tauto.
Qed.
Lemma tsteps_gone cap id : forall h s s', tsteps cap s h s' -> SI s -> id <= snd s ->
  (forall x, In x (fst s) -> t_id x <> id) -> Forall (fun e => ~ fires id e) h.
Proof.
  induction h as [|e h IH]; intros s s' HT HS Hid HN; [constructor|].
  inversion HT as [|? s1 ? op o ? H1 H2]; subst.
  destruct (tstep_SI _ _ _ _ _ H1 HS) as [HS1 Hle]. constructor.
  - inversion H1; subst; cbn; auto.
  - eapply IH; [exact H2|assumption|lia|]. intros x Hx. inversion H1; subst; cbn [fst snd] in *; auto.
    + destruct Hx as [<- |Hx]; [cbn; lia|auto].
    + apply without_in in Hx. apply HN. tauto.
    + apply without_in in Hx. apply HN. tauto.
Qed.
Lemma tsteps_app cap : forall h1 h2 s s', tsteps cap s (h1 ++ h2) s' ->
  exists m, tsteps cap s h1 m /\ tsteps cap m h2 s'.
Proof.
  induction h1 as [|e h1 IH]; intros h2 s s' H; cbn in *.
  - exists s. split; [constructor|assumption].
  - inversion H as [|? s1 ? op o ? H1 H2]; subst. destruct (IH _ _ _ H2) as (m & A & B).
    exists m. split; [econstructor; eassumption|assumption].
Qed.
Lemma tsteps_SI cap : forall h s s', tsteps cap s h s' -> SI s -> SI s' /\ snd s <= snd s'.
Proof.
  induction h as [|e h IH]; intros s s' H HS; inversion H as [|? s1 ? op o ? H1 H2]; subst; [split; [assumption|lia]|].
  destruct (tstep_SI _ _ _ _ _ H1 HS). destruct (IH _ _ H2); [assumption|]. split; [assumption|lia].
Qed.

Lemma tsteps_arm_snd cap id : forall h s s', tsteps cap s h s' -> SI s -> id <> 0 ->
  (exists e a, In (Arm e a, OArm id) h) -> id <= snd s'.
Proof.
  induction h as [|x h IH]; intros s s' H HS Hid (e & a & Hin); [destruct Hin|].
  inversion H as [|? s1 ? op o ? H1 H2]; subst. destruct (tstep_SI _ _ _ _ _ H1 HS) as [HS1 _].
  destruct Hin as [Hin|Hin].
  - injection Hin as -> ->. destruct (tsteps_SI _ _ _ _ H2 HS1) as [_ G]. inversion H1; subst; cbn [snd] in *; lia.
  - apply (IH _ _ H2 HS1 Hid). eauto.
Qed.

(** After a successful arm returned handle [id] and [id] was cancelled, no later poll ever delivers it. *)
Theorem timer_cancelled_never_fires cap ops h1 h2 id :
  Forall top_ok ops -> zlen ops < 4294967295 ->
  snd (timpl cap tinit ops) = h1 ++ (Cancel id, OCancel) :: h2 ->
  (exists e a, In (Arm e a, OArm id) h1) -> id <> 0 ->
  Forall (fun e => ~ fires id e) h2.
Proof.
  intros HO HN EQ HA Hid. destruct (timers_refine_pending_set cap ops HO HN) as (P & n & T & _).
  rewrite EQ in T. destruct (tsteps_app _ _ _ _ _ T) as (m & T1 & T2).
  assert (S0 : SI ([], 0)) by (split; cbn; [intros x []|lia]).
  destruct (tsteps_SI _ _ _ _ T1 S0) as [Sm _].
  pose proof (tsteps_arm_snd _ _ _ _ _ T1 S0 Hid HA) as Hle.
  inversion T2 as [|? s1 ? op o ? H1 H2]; subst.
  eapply tsteps_gone; [exact H2|eapply tstep_SI; eassumption| |].
  - destruct (tstep_SI _ _ _ _ _ H1 Sm). lia.
  - inversion H1; subst. cbn. intros x Hx. apply without_in in Hx. tauto.
Qed.

(** A timer that has been delivered is never delivered again. *)
Theorem timer_fires_at_most_once cap ops h1 h2 now t :
  Forall top_ok ops -> zlen ops < 4294967295 ->
  snd (timpl cap tinit ops) = h1 ++ (Poll now, OPoll (Some t)) :: h2 ->
  Forall (fun e => ~ fires (t_id t) e) h2.
Proof.
  intros HO HN EQ. destruct (timers_refine_pending_set cap ops HO HN) as (P & n & T & _).
  rewrite EQ in T. destruct (tsteps_app _ _ _ _ _ T) as (m & T1 & T2).
  assert (S0 : SI ([], 0)) by (split; cbn; [intros x []|lia]).
  destruct (tsteps_SI _ _ _ _ T1 S0) as [Sm _].
  inversion T2 as [|? s1 ? op o ? H1 H2]; subst.
  destruct (tstep_SI _ _ _ _ _ H1 Sm) as [S1 Hle].
  inversion H1; subst. cbn [fst snd] in *. eapply tsteps_gone; [exact H2|assumption| |].
  - destruct Sm as [Sm _]. specialize (Sm t ltac:(assumption)). cbn in *. lia.
  - cbn. intros x Hx. apply without_in in Hx. tauto.
Qed.

(** A timer that is armed and never cancelled is delivered if the poll loop runs
    to exhaustion at or after its deadline: a poll that reports nothing due
    leaves only timers whose deadline is in the future. *)
Theorem timer_due_is_delivered cap ops now h :
  Forall top_ok ops -> zlen ops < 4294967295 ->
  snd (timpl cap tinit ops) = h ++ [(Poll now, OPoll None)] ->
  forall x, In x (fst (fst (timpl cap tinit ops))) -> now < t_exp x.
Proof.
  intros HO HN EQ. destruct (timers_refine_pending_set cap ops HO HN) as (P & n & T & HP & _).
  rewrite EQ in T. destruct (tsteps_app _ _ _ _ _ T) as (m & T1 & T2).
  inversion T2 as [|? s1 ? op o ? H1 H2]; subst. inversion H2; subst. inversion H1; subst.
  intros x Hx. eapply Permutation_in in Hx; [|exact HP]. auto.
Qed.

Print Assumptions timers_refine_pending_set.
Print Assumptions timer_cancelled_never_fires.
Print Assumptions timer_fires_at_most_once.
Print Assumptions timer_due_is_delivered.

(** Non-vacuity: a concrete history with ties, a cancel, a refusal and deliveries. *)
Example timers_history :
  map snd (snd (timpl 3 tinit [Arm 50 7; Arm 20 8; Arm 20 9; Arm 5 1; Cancel 2; Poll 10; Poll 20; Arm 1 1; Poll 60; Poll 60; Poll 60])) =
  [OArm 1; OArm 2; OArm 3; OArm 0; OCancel; OPoll None; OPoll (Some {| t_id := 3; t_exp := 20; t_arg := 9 |});
   OArm 4; OPoll (Some {| t_id := 4; t_exp := 1; t_arg := 1 |}); OPoll (Some {| t_id := 1; t_exp := 50; t_arg := 7 |}); OPoll None].
Proof. reflexivity. Qed.
