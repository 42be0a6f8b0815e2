(** What an anti-replay window must do, independently of any implementation:
    decisions depend only on the set of numbers accepted so far. *)
From Verif Require Import Base.

(** The newest number accepted so far, but at least [floor]. *)
Definition newest (floor : Z) (acc : list Z) : Z := fold_right Z.max floor acc.

(** [c] is fresh: never accepted, and fewer than [win] numbers older than the newest. *)
Definition fresh (win floor : Z) (acc : list Z) (c : Z) : Prop :=
  ~ In c acc /\ newest floor acc - win < c.

(** [outcomes step st evs] runs a receiver over a list of (number, authenticated)
    arrivals and pairs each with the verdict; [None] is undefined behaviour. *)
Fixpoint outcomes {St} (step : St -> Z -> bool -> option (St * bool)) (st : St) (evs : list (Z * bool))
  : option (list (Z * bool * bool)) :=
  match evs with
  | [] => Some []
  | (c, a) :: evs' =>
      do (st', v) <- step st c a;
      do rest <- outcomes step st' evs';
      Some ((c, a, v) :: rest)
  end.

(** The numbers accepted in a run. *)
Fixpoint accepted (out : list (Z * bool * bool)) : list Z :=
  match out with
  | [] => []
  | (c, _, true) :: o => c :: accepted o
  | (_, _, false) :: o => accepted o
  end.

Lemma accepted_app o1 o2 : accepted (o1 ++ o2) = accepted o1 ++ accepted o2.
Proof. induction o1 as [|[[c a] [|]] o1 IH]; cbn; rewrite ?IH; reflexivity. Qed.

Lemma newest_ge f acc : f <= newest f acc.
Proof. induction acc as [|a acc IH]; cbn; [lia|]. fold (newest f acc). lia. Qed.
Lemma newest_in f acc c : In c acc -> c <= newest f acc.
Proof.
  induction acc as [|a acc IH]; cbn; [tauto|]. fold (newest f acc).
  intros [-> | H]; [lia|]. specialize (IH H). lia.
Qed.
Lemma newest_le f acc b : f <= b -> (forall c, In c acc -> c <= b) -> newest f acc <= b.
Proof.
  intros Hf. induction acc as [|a acc IH]; cbn; intros H; [assumption|]. fold (newest f acc).
  pose proof (H a (or_introl eq_refl)). assert (newest f acc <= b) by (apply IH; auto). lia.
Qed.
Lemma newest_perm f acc x : newest f (acc ++ [x]) = Z.max x (newest f acc).
Proof.
  induction acc as [|a acc IH]; cbn; [reflexivity|]. fold (newest f acc). fold (newest f (acc ++ [x])).
  rewrite IH. lia.
Qed.

(** From a one-step invariant to whole runs. *)
Lemma run_exact {St} (step : St -> Z -> bool -> option (St * bool)) (Inv : St -> list Z -> Prop)
  (dom : Z -> Prop) (P : list Z -> Z -> Prop) :
  (forall st acc c a, Inv st acc -> dom c ->
     exists st' v, step st c a = Some (st', v) /\ (v = true <-> a = true /\ P acc c) /\
                   Inv st' (if v then acc ++ [c] else acc)) ->
  forall evs st acc, Inv st acc -> (forall c a, In (c, a) evs -> dom c) ->
  exists out, outcomes step st evs = Some out /\ map fst out = evs /\
    forall o1 c a v o2, out = o1 ++ (c, a, v) :: o2 ->
      (v = true <-> a = true /\ P (acc ++ accepted o1) c).
Proof.
  intros HS. induction evs as [|[c a] evs IH]; intros st acc HI HD.
  - exists []. repeat split; intros; destruct o1; discriminate.
  - destruct (HS st acc c a HI (HD c a (or_introl eq_refl))) as (st' & v & E & Hv & HI').
    destruct (IH st' _ HI' ltac:(intros; eapply HD; right; eassumption)) as (out & EO & EM & EX).
    exists ((c, a, v) :: out). cbn [outcomes]. rewrite E. cbn [obind]. rewrite EO. cbn [obind].
    split; [reflexivity|]. split; [cbn; rewrite EM; reflexivity|].
    intros [|[[c1 a1] v1] o1] c0 a0 v0 o2 EQ.
    + cbn in EQ. assert (c0 = c /\ a0 = a /\ v0 = v) as (-> & -> & ->) by (repeat split; congruence).
      cbn [accepted]. rewrite app_nil_r. exact Hv.
    + cbn in EQ. assert (c1 = c /\ a1 = a /\ v1 = v) as (-> & -> & ->) by (repeat split; congruence).
      assert (EQ2 : out = o1 ++ (c0, a0, v0) :: o2) by congruence.
      specialize (EX _ _ _ _ _ EQ2). rewrite EX. destruct v; cbn [accepted]; rewrite <- ?app_assoc; reflexivity.
Qed.

(** Exactness implies no duplicates. *)
Lemma exact_nodup (P : list Z -> Z -> Prop) (out : list (Z * bool * bool)) :
  (forall acc c, P acc c -> ~ In c acc) ->
  (forall o1 c a v o2, out = o1 ++ (c, a, v) :: o2 -> (v = true <-> a = true /\ P (accepted o1) c)) ->
  NoDup (accepted out).
Proof.
  intros HP. induction out as [|[[c a] v] out IH] using rev_ind; intros HX; [constructor|].
  assert (ND : NoDup (accepted out)).
  { apply IH. intros o1 c0 a0 v0 o2 ->. apply (HX o1 c0 a0 v0 (o2 ++ [(c, a, v)])).
    rewrite <- app_assoc. reflexivity. }
  rewrite accepted_app. specialize (HX out c a v [] eq_refl). destruct v; cbn [accepted]; [|rewrite app_nil_r; assumption].
  destruct HX as [HX _]. destruct (HX eq_refl) as [_ HPc]. apply HP in HPc.
  clear - ND HPc. induction (accepted out) as [|x l IHl]; cbn; [constructor; [tauto|constructor]|].
  inversion ND; subst. constructor.
  - rewrite in_app_iff. cbn. intros [H|[H|[]]]; [contradiction|]. subst. apply HPc. left. reflexivity.
  - apply IHl; [assumption|]. intros H. apply HPc. right. assumption.
Qed.
