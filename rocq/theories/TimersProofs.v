From Verif Require Import Base Timers.
From Coq Require Import Permutation FinFun.
Local Ltac Zify.zify_post_hook ::= idtac.

Lemma tset_split (l : list timer) i x : (i < length l)%nat ->
  exists a y b, l = a ++ y :: b /\ length a = i /\ tset l i x = a ++ x :: b.
Proof.
  intros H. exists (firstn i l). destruct (skipn i l) as [|y b] eqn:E.
  - assert (length (skipn i l) = 0)%nat by (rewrite E; reflexivity). rewrite skipn_length in *. lia.
  - exists y, b. split; [rewrite <- E; symmetry; apply firstn_skipn|].
    split; [rewrite firstn_length; lia|]. unfold tset. rewrite E. reflexivity.
Qed.
Lemma tset_length l i x : length (tset l i x) = length l.
Proof.
  unfold tset. rewrite app_length. destruct (skipn i l) as [|y b] eqn:E.
  - assert (length (skipn i l) = 0)%nat by (rewrite E; reflexivity). rewrite skipn_length in *.
    rewrite firstn_length. cbn. lia.
  - assert (length (skipn i l) = S (length b))%nat by (rewrite E; reflexivity). rewrite skipn_length in *.
    rewrite firstn_length. cbn. lia.
Qed.
Lemma tget_tset l i x k : (i < length l)%nat -> tget (tset l i x) k = if (k =? i)%nat then x else tget l k.
Proof.
  intros H. destruct (tset_split l i x H) as (a & y & b & -> & <- & ->). unfold tget.
  destruct (k =? length a)%nat eqn:E.
  - apply Nat.eqb_eq in E. subst. rewrite app_nth2 by lia. rewrite Nat.sub_diag. reflexivity.
  - apply Nat.eqb_neq in E. destruct (Nat.lt_ge_cases k (length a)).
    + rewrite !app_nth1 by assumption. reflexivity.
    + rewrite !app_nth2 by lia. destruct (k - length a)%nat eqn:Q; [lia|]. reflexivity.
Qed.
Lemma tswap_length l i j : length (tswap l i j) = length l.
Proof. unfold tswap. rewrite !tset_length. reflexivity. Qed.
Lemma tget_tswap l i j k : (i < length l)%nat -> (j < length l)%nat ->
  tget (tswap l i j) k = if (k =? j)%nat then tget l i else if (k =? i)%nat then tget l j else tget l k.
Proof.
  intros Hi Hj. unfold tswap. rewrite tget_tset by (rewrite tset_length; assumption).
  destruct (k =? j)%nat; [reflexivity|]. rewrite tget_tset by assumption. reflexivity.
Qed.
Lemma tswap_perm l i j : (i < length l)%nat -> (j < length l)%nat -> Permutation l (tswap l i j).
Proof.
  intros Hi Hj. apply (Permutation_nth l (tswap l i j) t0). split; [apply tswap_length|].
  exists (fun k => if (k =? j)%nat then i else if (k =? i)%nat then j else k). split; [|split].
  - intros x Hx. destruct (x =? j)%nat; [assumption|]. destruct (x =? i)%nat; assumption.
  - intros x y Hx Hy. destruct (x =? j)%nat eqn:E1; destruct (y =? j)%nat eqn:E2;
      destruct (x =? i)%nat eqn:E3; destruct (y =? i)%nat eqn:E4; lia.
  - intros x Hx. change (nth x (tswap l i j) t0) with (tget (tswap l i j) x). rewrite tget_tswap by assumption.
    destruct (x =? j)%nat; [reflexivity|]. destruct (x =? i)%nat; reflexivity.
Qed.
Lemma tset_perm l i x : (i < length l)%nat -> Permutation (tget l i :: tset l i x) (x :: l).
Proof.
  intros H. destruct (tset_split l i x H) as (a & y & b & -> & <- & ->).
  unfold tget. rewrite app_nth2 by lia. rewrite Nat.sub_diag. cbn [nth].
  rewrite <- (Permutation_middle a b x), <- (Permutation_middle a b y). apply perm_swap.
Qed.

(** ** Heap order *)
Definition par (k : nat) : nat := ((k - 1) / 2)%nat.
Lemma par_spec k : (0 < k)%nat -> (k = 2 * par k + 1 \/ k = 2 * par k + 2)%nat /\ (par k < k)%nat.
Proof.
  intros H. unfold par. pose proof (Nat.div_mod (k - 1) 2 ltac:(lia)).
  pose proof (Nat.mod_upper_bound (k - 1) 2 ltac:(lia)). lia.
Qed.
Definition ex (l : list timer) (k : nat) : Z := t_exp (tget l k).
Definition Heap (l : list timer) : Prop :=
  forall k, (0 < k < length l)%nat -> ex l (par k) <= ex l k.
Definition DU (l : list timer) (i : nat) : Prop :=
  (forall k, (0 < k < length l)%nat -> k <> i -> par k <> i -> ex l (par k) <= ex l k) /\
  (forall k, (0 < k < length l)%nat -> par k = i -> (0 < i)%nat -> ex l (par i) <= ex l k).
Definition U (l : list timer) (i : nat) : Prop :=
  (forall k, (0 < k < length l)%nat -> k <> i -> ex l (par k) <= ex l k) /\
  (forall k, (0 < k < length l)%nat -> par k = i -> (0 < i)%nat -> ex l (par i) <= ex l k).
Definition Pok (l : list timer) (i : nat) : Prop := i = 0%nat \/ ex l (par i) <= ex l i.

Lemma ex_tswap l i j k : (i < length l)%nat -> (j < length l)%nat ->
  ex (tswap l i j) k = if (k =? j)%nat then ex l i else if (k =? i)%nat then ex l j else ex l k.
Proof.
  intros. unfold ex. rewrite tget_tswap by assumption.
  destruct (k =? j)%nat; [reflexivity|]. destruct (k =? i)%nat; reflexivity.
Qed.

Lemma sift_down_spec : forall fuel l i, (length l - i <= fuel)%nat -> (i < length l)%nat -> DU l i ->
  exists l' i', sift_down fuel l i = (l', i') /\ Permutation l l' /\ (i' < length l')%nat /\ U l' i' /\ (Pok l i -> Pok l' i').
Proof.
  induction fuel as [|fuel IH]; intros l i HF Hi [D1 D2]; [lia|].
  cbn [sift_down]. destruct (2 * i + 1 <? length l)%nat eqn:E1.
  - apply Nat.ltb_lt in E1.
    set (j0 := (2 * i + 1)%nat) in *.
    set (j := if (j0 + 1 <? length l)%nat && (t_exp (tget l (j0 + 1)) <? t_exp (tget l j0)) then (j0 + 1)%nat else j0).
    assert (Hj : (j < length l)%nat /\ (j = j0 \/ j = (j0 + 1)%nat) /\
                 (forall k, (k < length l)%nat -> k = j0 \/ k = (j0 + 1)%nat -> ex l j <= ex l k)).
    { subst j. destruct (j0 + 1 <? length l)%nat eqn:E2; cbn [andb].
      - apply Nat.ltb_lt in E2. destruct (t_exp (tget l (j0 + 1)) <? t_exp (tget l j0)) eqn:E3.
        + split; [assumption|]. split; [auto|]. intros k Hk [-> | ->]; unfold ex; lia.
        + split; [assumption|]. split; [auto|]. intros k Hk [-> | ->]; unfold ex; lia.
      - apply Nat.ltb_ge in E2. split; [assumption|]. split; [auto|]. intros k Hk [-> | ->]; [lia|lia]. }
    destruct Hj as (Hjl & Hjc & Hjm). clearbody j.
    assert (Hpj : par j = i).
    { destruct (par_spec j ltac:(lia)) as [Hp _]. lia. }
    destruct (t_exp (tget l i) <=? t_exp (tget l j)) eqn:E4.
    + exists l, i. split; [reflexivity|]. split; [apply Permutation_refl|]. split; [assumption|]. split; [|auto].
      split; [|assumption]. intros k Hk Hki. destruct (Nat.eq_dec (par k) i) as [Hp|Hp]; [|apply D1; assumption].
      rewrite Hp. transitivity (ex l j); [unfold ex; lia|]. apply Hjm; [lia|].
      destruct (par_spec k ltac:(lia)) as [Hq _]. lia.
    + assert (HGT : ex l j < ex l i) by (unfold ex; lia).
      destruct (IH (tswap l i j) j) as (l' & i' & E & HP & Hi' & HU & HPok).
      * rewrite tswap_length. lia.
      * rewrite tswap_length. assumption.
      * split.
        -- intros k Hk Hkj Hpk. rewrite tswap_length in Hk. rewrite !ex_tswap by assumption.
           destruct (par_spec k ltac:(lia)) as [Hpc Hpl].
           destruct (k =? j)%nat eqn:Q1; [apply Nat.eqb_eq in Q1; contradiction|].
           destruct (par k =? j)%nat eqn:Q2; [apply Nat.eqb_eq in Q2; contradiction|].
           destruct (k =? i)%nat eqn:Q3.
           ++ apply Nat.eqb_eq in Q3. subst k. destruct (par i =? i)%nat eqn:Q4; [apply Nat.eqb_eq in Q4; lia|].
              apply D2; [lia|assumption|lia].
           ++ apply Nat.eqb_neq in Q3. destruct (par k =? i)%nat eqn:Q4.
              ** apply Nat.eqb_eq in Q4. apply Hjm; lia.
              ** apply Nat.eqb_neq in Q4. apply D1; assumption.
        -- intros k Hk Hpk Hj0. rewrite tswap_length in Hk. rewrite Hpj. rewrite !ex_tswap by assumption.
           destruct (par_spec k ltac:(lia)) as [Hpc Hpl].
           destruct (i =? j)%nat eqn:Q0; [apply Nat.eqb_eq in Q0; lia|]. rewrite Nat.eqb_refl.
           destruct (k =? j)%nat eqn:Q1; [apply Nat.eqb_eq in Q1; lia|].
           destruct (k =? i)%nat eqn:Q2; [apply Nat.eqb_eq in Q2; lia|].
           rewrite <- Hpk. apply D1; [lia| |]. { apply Nat.eqb_neq in Q2; assumption. } { lia. }
      * exists l', i'. split; [assumption|]. split; [exact (Permutation_trans (tswap_perm l i j Hi Hjl) HP)|].
        split; [assumption|]. split; [assumption|]. intros _. apply HPok. right. rewrite Hpj. rewrite !ex_tswap by assumption.
        destruct (i =? j)%nat eqn:Q0; [apply Nat.eqb_eq in Q0; lia|]. rewrite !Nat.eqb_refl. lia.
  - apply Nat.ltb_ge in E1. exists l, i. split; [reflexivity|]. split; [apply Permutation_refl|].
    split; [assumption|]. split; [|auto]. split; [|assumption].
    intros k Hk Hki. destruct (par_spec k ltac:(lia)) as [Hpc _]. apply D1; [assumption|assumption|lia].
Qed.

Lemma sift_up_spec : forall fuel l i, (i < fuel)%nat -> (i < length l)%nat -> U l i ->
  Permutation l (sift_up fuel l i) /\ Heap (sift_up fuel l i).
Proof.
  induction fuel as [|fuel IH]; intros l i HF Hi [U1 U2]; [lia|].
  cbn [sift_up]. destruct i as [|i'].
  - split; [apply Permutation_refl|]. intros k Hk. apply U1; [assumption|lia].
  - set (i := S i') in *. fold (par i). destruct (par_spec i ltac:(subst i; lia)) as [Hpc Hpl].
    assert (Hp : (par i < length l)%nat) by lia.
    destruct (t_exp (tget l i) <? t_exp (tget l (par i))) eqn:E.
    + assert (HLT : ex l i < ex l (par i)) by (unfold ex; lia).
      destruct (IH (tswap l i (par i)) (par i)) as [HP HH].
      * lia.
      * rewrite tswap_length. assumption.
      * split.
        -- intros k Hk Hkp. rewrite tswap_length in Hk. rewrite !ex_tswap by assumption.
           destruct (par_spec k ltac:(lia)) as [Hqc Hql].
           destruct (k =? par i)%nat eqn:Q1; [apply Nat.eqb_eq in Q1; contradiction|].
           destruct (k =? i)%nat eqn:Q2.
           ++ apply Nat.eqb_eq in Q2. subst k. rewrite Nat.eqb_refl. lia.
           ++ apply Nat.eqb_neq in Q2. destruct (par k =? par i)%nat eqn:Q3.
              ** apply Nat.eqb_eq in Q3. transitivity (ex l (par i)); [lia|]. rewrite <- Q3. apply U1; assumption.
              ** destruct (par k =? i)%nat eqn:Q4.
                 --- apply Nat.eqb_eq in Q4. apply U2; [lia|assumption|subst i; lia].
                 --- apply U1; assumption.
        -- intros k Hk Hpk Hp0. rewrite tswap_length in Hk. rewrite !ex_tswap by assumption.
           destruct (par_spec k ltac:(lia)) as [Hqc Hql]. destruct (par_spec (par i) Hp0) as [Hrc Hrl].
           destruct (par (par i) =? par i)%nat eqn:Q0; [apply Nat.eqb_eq in Q0; lia|].
           destruct (par (par i) =? i)%nat eqn:Q0'; [apply Nat.eqb_eq in Q0'; lia|].
           destruct (k =? par i)%nat eqn:Q1; [apply Nat.eqb_eq in Q1; lia|].
           assert (HPP : ex l (par (par i)) <= ex l (par i)) by (apply U1; lia).
           destruct (k =? i)%nat eqn:Q2; [assumption|].
           apply Nat.eqb_neq in Q2. transitivity (ex l (par i)); [assumption|]. rewrite <- Hpk. apply U1; [lia|assumption].
      * split; [eapply Permutation_trans; [apply (tswap_perm l i (par i)); assumption|exact HP]|exact HH].
    + split; [apply Permutation_refl|]. intros k Hk. destruct (Nat.eq_dec k i) as [-> |Hk2].
      * unfold ex. lia.
      * apply U1; assumption.
Qed.

Lemma heap_min l k : Heap l -> (k < length l)%nat -> ex l 0 <= ex l k.
Proof.
  intros HH. induction k as [k IH] using lt_wf_ind. intros Hk.
  destruct k as [|k']; [lia|]. set (k := S k') in *.
  destruct (par_spec k ltac:(subst k; lia)) as [_ Hl].
  transitivity (ex l (par k)); [apply IH; lia|]. apply HH. subst k; lia.
Qed.

Lemma tget_removelast l k : (k < length l - 1)%nat -> tget (removelast l) k = tget l k.
Proof.
  intros H. destruct l as [|a l] using rev_ind; [cbn in H; lia|].
  rewrite removelast_last. unfold tget. rewrite app_length in H. cbn in H.
  rewrite app_nth1 by lia. reflexivity.
Qed.
Lemma removelast_length (l : list timer) : length (removelast l) = (length l - 1)%nat.
Proof.
  destruct l as [|a l] using rev_ind; [reflexivity|]. rewrite removelast_last, app_length. cbn. lia.
Qed.
Lemma tset_last_removelast l i : (i < length l)%nat ->
  Permutation l (tget l i :: removelast (tset l i (tget l (length l - 1)))).
Proof.
  intros H. pose proof (tset_perm l i (tget l (length l - 1)) H) as HP.
  set (l2 := tset l i (tget l (length l - 1))) in *.
  assert (HL : length l2 = length l) by apply tset_length.
  destruct l2 as [|z l2'] eqn:E using rev_ind; [cbn in HL; lia|]. clear IHl2'.
  rewrite removelast_last.
  assert (Hz : z = tget l (length l - 1)).
  { assert (G : tget (l2' ++ [z]) (length l - 1) = z).
    { unfold tget. rewrite app_length in HL. cbn in HL. rewrite app_nth2 by lia.
      replace (length l - 1 - length l2')%nat with 0%nat by lia. reflexivity. }
    rewrite <- G. subst l2. rewrite <- E. rewrite tget_tset by assumption.
    destruct (length l - 1 =? i)%nat; reflexivity. }
  rewrite <- Hz in HP. apply Permutation_cons_inv with (a := z).
  symmetry. eapply Permutation_trans; [|exact HP].
  eapply Permutation_trans; [apply perm_swap|]. apply perm_skip. apply Permutation_cons_append.
Qed.

Lemma pop_spec l : Heap l -> l <> [] ->
  exists l' t, timers_binheap_pop l = (l', t) /\ Permutation l (t :: l') /\ Heap l' /\
    forall x, In x l -> t_exp t <= t_exp x.
Proof.
  intros HH Hne. unfold timers_binheap_pop.
  assert (HL : (0 < length l)%nat) by (destruct l; [contradiction|cbn; lia]).
  assert (HMIN : forall x, In x l -> t_exp (tget l 0) <= t_exp x).
  { intros x Hx. destruct (In_nth l x t0 Hx) as (k & Hk & <-). apply (heap_min l k HH Hk). }
  set (last := tget l (length l - 1)).
  destruct (Nat.eq_dec (length l) 1) as [H1|H1].
  - destruct l as [|a [|b l]]; cbn in H1; try lia. cbn. eexists _, _. split; [reflexivity|].
    split; [apply Permutation_refl|]. split; [intros k Hk; cbn in Hk; lia|exact HMIN].
  - set (l1 := tset (removelast l) 0 last).
    assert (HL1 : length l1 = (length l - 1)%nat) by (subst l1; rewrite tset_length; apply removelast_length).
    assert (HG : forall k, (0 < k < length l1)%nat -> tget l1 k = tget l k).
    { intros k Hk. subst l1. rewrite tget_tset by (rewrite removelast_length; lia).
      destruct (k =? 0)%nat eqn:Q; [apply Nat.eqb_eq in Q; lia|]. apply tget_removelast. lia. }
    assert (HDU : DU l1 0).
    { split; [|intros; lia]. intros k Hk _ Hp. destruct (par_spec k ltac:(lia)) as [Hpc Hpl].
      unfold ex. rewrite !HG by lia. apply HH. lia. }
    destruct (sift_down_spec (length l1) l1 0 ltac:(lia) ltac:(lia) HDU) as (l' & i' & E & HP & Hi' & [HU1 _] & HPok).
    rewrite E. cbn [fst]. exists l', (tget l 0). split; [reflexivity|].
    specialize (HPok (or_introl eq_refl)).
    split; [|split; [|exact HMIN]].
    + eapply Permutation_trans; [apply (tset_last_removelast l 0 HL)|]. apply perm_skip. fold last.
      assert (HEQ : removelast (tset l 0 last) = l1).
      { subst l1. unfold tset. cbn [firstn skipn app]. destruct l as [|a [|b l]]; cbn in H1, HL; try lia. reflexivity. }
      rewrite HEQ. exact HP.
    + intros k Hk. destruct (Nat.eq_dec k i') as [-> |Hk2]; [|apply HU1; assumption].
      destruct HPok as [-> |Hp]; [lia|exact Hp].
Qed.

Definition live (l : list timer) : list timer := filter (fun t => negb (t_exp t =? 0)) l.
Definition exps_ok (l : list timer) : Prop := forall x, In x l -> 0 <= t_exp x.

Lemma live_perm l l' : Permutation l l' -> Permutation (live l) (live l').
Proof.
  induction 1; cbn.
  - constructor.
  - destruct (negb _); [apply perm_skip; assumption|assumption].
  - destruct (negb (t_exp y =? 0)), (negb (t_exp x =? 0)); try apply Permutation_refl. apply perm_swap.
  - eapply Permutation_trans; eassumption.
Qed.
Lemma live_id l : (forall x, In x l -> t_exp x <> 0) -> live l = l.
Proof.
  induction l as [|a l IH]; cbn; intros H; [reflexivity|].
  destruct (t_exp a =? 0) eqn:E; [apply Z.eqb_eq in E; exfalso; apply (H a); auto|].
  cbn. f_equal. apply IH. intros x Hx. apply H. auto.
Qed.
Lemma live_in l x : In x (live l) <-> In x l /\ t_exp x <> 0.
Proof.
  unfold live. rewrite filter_In. destruct (t_exp x =? 0) eqn:E; cbn [negb].
  - apply Z.eqb_eq in E. intuition (congruence || discriminate).
  - apply Z.eqb_neq in E. intuition.
Qed.

Lemma drain_spec : forall fuel l, (length l <= fuel)%nat -> Heap l -> exps_ok l ->
  Heap (drain fuel l) /\ Permutation (live l) (drain fuel l).
Proof.
  induction fuel as [|fuel IH]; intros l HF HH HE; cbn [drain].
  - destruct l; [|cbn in HF; lia]. split; [assumption|constructor].
  - destruct l as [|a l0] eqn:EL; [split; [assumption|constructor]|]. rewrite <- EL in *.
    assert (Hne : l <> []) by (rewrite EL; discriminate).
    destruct (pop_spec l HH Hne) as (l' & t & E & HP & HH' & HM).
    destruct (t_exp (tget l 0) =? 0) eqn:Q.
    + assert (Ht : t = tget l 0) by (unfold timers_binheap_pop in E; congruence).
      rewrite E. cbn [fst]. destruct (IH l') as [G1 G2].
      * apply Permutation_length in HP. cbn in HP. lia.
      * assumption.
      * intros x Hx. apply HE. eapply Permutation_in; [symmetry; exact HP|right; assumption].
      * split; [assumption|]. eapply Permutation_trans; [apply live_perm; exact HP|].
        cbn [live filter]. rewrite Ht, Q. cbn. exact G2.
    + split; [assumption|]. rewrite live_id; [apply Permutation_refl|].
      intros x Hx. specialize (HM x Hx). assert (Ht : t = tget l 0) by (unfold timers_binheap_pop in E; congruence).
      subst t. apply Z.eqb_neq in Q. specialize (HE (tget l 0)).
      assert (In (tget l 0) l) by (apply nth_In; rewrite EL; cbn; lia). specialize (HE H). lia.
Qed.

Lemma insert_spec maxt l cnt exp arg : Heap l -> exps_ok l ->
  exists l' cnt' id, timers_binheap_insert maxt l cnt exp arg = ((l', cnt'), id) /\ Heap l' /\
    ((maxt <= length (live l))%nat /\ id = 0 /\ Permutation (live l) l' /\ cnt' = (if cnt =? 0 then 1 else cnt) \/
     (length (live l) < maxt)%nat /\ id = (if cnt =? 0 then 1 else cnt) /\ cnt' = u32 (id + 1) /\
       Permutation ({| t_id := id; t_exp := exp; t_arg := arg |} :: live l) l').
Proof.
  intros HH HE. destruct (drain_spec (length l) l (le_n _) HH HE) as [DH DP].
  unfold timers_binheap_insert. set (c := if cnt =? 0 then 1 else cnt). set (d := drain (length l) l) in *.
  assert (HLEN : length d = length (live l)) by (symmetry; apply Permutation_length; assumption).
  destruct (maxt <=? length d)%nat eqn:E.
  - apply Nat.leb_le in E. exists d, c, 0. split; [reflexivity|]. split; [assumption|]. left. 
    split; [lia|]. auto.
  - apply Nat.leb_gt in E. set (tm := {| t_id := c; t_exp := exp; t_arg := arg |}). set (l1 := d ++ [tm]).
    assert (HL1 : length l1 = S (length d)) by (subst l1; rewrite app_length; cbn; lia).
    assert (HG : forall k, (k < length d)%nat -> ex l1 k = ex d k).
    { intros k Hk. unfold ex, tget. subst l1. rewrite app_nth1 by assumption. reflexivity. }
    destruct (sift_up_spec (length l1) l1 (length l1 - 1)) as [SP SH]; [lia|lia| |].
    + split.
      * intros k Hk Hk2. destruct (par_spec k ltac:(lia)) as [_ Hpl]. rewrite !HG by lia. apply DH. lia.
      * intros k Hk Hpk Hz. destruct (par_spec k ltac:(lia)) as [_ Hpl]. lia.
    + eexists _, _, _. split; [reflexivity|]. split; [assumption|]. right. split; [lia|]. split; [reflexivity|].
      split; [reflexivity|]. eapply Permutation_trans; [|exact SP]. subst l1.
      eapply Permutation_trans; [apply perm_skip; exact DP|]. apply Permutation_cons_append.
Qed.

Lemma due_spec l now : Heap l -> exps_ok l ->
  exists l' r, timer_due l now = (l', r) /\ Heap l' /\
    match r with
    | None => Permutation (live l) l' /\ (forall x, In x (live l) -> now < t_exp x)
    | Some t => Permutation (live l) (t :: l') /\ t_exp t <= now /\ (forall x, In x (live l) -> t_exp t <= t_exp x)
    end.
Proof.
  intros HH HE. destruct (drain_spec (length l) l (le_n _) HH HE) as [DH DP].
  unfold timer_due, is_timer_expired. set (d := drain (length l) l) in *.
  destruct d as [|a d0] eqn:ED.
  - exists [], None. split; [reflexivity|]. split; [assumption|]. split; [assumption|].
    intros x Hx. exfalso. eapply Permutation_in in Hx; [|exact DP]. contradiction.
  - rewrite <- ED in *. assert (Hne : d <> []) by (rewrite ED; discriminate).
    destruct (pop_spec d DH Hne) as (l' & t & E & HP & HH' & HM).
    assert (Ht : t = tget d 0) by (unfold timers_binheap_pop in E; congruence).
    destruct (t_exp (tget d 0) <=? now) eqn:Q.
    + rewrite E. exists l', (Some t). split; [reflexivity|]. split; [assumption|].
      split; [eapply Permutation_trans; eassumption|]. split; [subst t; lia|].
      intros x Hx. apply HM. eapply Permutation_in; eassumption.
    + exists d, None. split; [reflexivity|]. split; [assumption|]. split; [assumption|].
      intros x Hx. eapply Permutation_in in Hx; [|exact DP]. specialize (HM x Hx). subst t. lia.
Qed.

Lemma find_id_spec l id : forall i0, match find_id l id i0 with
  | None => forall x, In x l -> t_id x <> id
  | Some i => (i0 <= i < i0 + length l)%nat /\ t_id (tget l (i - i0)) = id
  end.
Proof.
  induction l as [|a l IH]; intros i0; cbn [find_id].
  - intros x [].
  - destruct (t_id a =? id) eqn:E.
    + apply Z.eqb_eq in E. cbn [length]. split; [lia|]. rewrite Nat.sub_diag. exact E.
    + apply Z.eqb_neq in E. specialize (IH (S i0)). destruct (find_id l id (S i0)) as [i|].
      * destruct IH as [H1 H2]. cbn [length]. split; [lia|].
        replace (i - i0)%nat with (S (i - S i0)) by lia. exact H2.
      * intros x [<- |Hx]; [assumption|apply IH; assumption].
Qed.
Lemma cancel_spec l id : Heap l ->
  Heap (timer_binheap_cancel l id) /\
  ((forall x, In x l -> t_id x <> id) /\ timer_binheap_cancel l id = l \/
   exists t, t_id t = id /\ Permutation l (t :: timer_binheap_cancel l id)).
Proof.
  intros HH. unfold timer_binheap_cancel. pose proof (find_id_spec l id 0) as HF.
  destruct (find_id l id 0) as [i|]; [|split; [assumption|left; auto]].
  destruct HF as [Hi Hid]. rewrite Nat.sub_0_r in Hid. cbn [Nat.add] in Hi.
  pose proof (tset_last_removelast l i ltac:(lia)) as HP.
  set (l2 := tset l i (tget l (length l - 1))) in *. set (l1 := removelast l2) in *.
  assert (HL2 : length l2 = length l) by apply tset_length.
  assert (HL1 : length l1 = (length l - 1)%nat) by (subst l1; rewrite removelast_length; lia).
  assert (HG : forall k, (k < length l1)%nat -> k <> i -> ex l1 k = ex l k).
  { intros k Hk Hki. unfold ex. subst l1. rewrite tget_removelast by lia. subst l2. rewrite tget_tset by lia.
    destruct (k =? i)%nat eqn:Q; [apply Nat.eqb_eq in Q; contradiction|reflexivity]. }
  unfold timers_heapify. destruct (length l1 <=? i)%nat eqn:E.
  - apply Nat.leb_le in E. split.
    + intros k Hk. destruct (par_spec k ltac:(lia)) as [_ Hpl]. rewrite !HG by lia. apply HH. lia.
    + right. exists (tget l i). auto.
  - apply Nat.leb_gt in E.
    assert (HDU : DU l1 i).
    { split.
      - intros k Hk Hki Hp. destruct (par_spec k ltac:(lia)) as [Hpc Hpl]. rewrite !HG by lia. apply HH. lia.
      - intros k Hk Hp Hi0. destruct (par_spec k ltac:(lia)) as [Hpc Hpl]. destruct (par_spec i Hi0) as [Hqc Hql].
        rewrite !HG by lia. transitivity (ex l i); [apply HH; lia|]. rewrite <- Hp. apply HH. lia. }
    destruct (sift_down_spec (length l1) l1 i ltac:(lia) ltac:(lia) HDU) as (l' & i' & ES & HP' & Hi' & HU & _).
    rewrite ES. destruct (sift_up_spec (S i') l' i' ltac:(lia) Hi' HU) as [SP SH].
    split; [assumption|]. right. exists (tget l i). split; [assumption|].
    eapply Permutation_trans; [exact HP|]. apply perm_skip.
    eapply Permutation_trans; eassumption.
Qed.
