(** C38: the loopback device is a bounded FIFO. *)
From Verif Require Import Base ListUtil Loopback.

(** ** Specification: a queue of at most four packets. *)
Inductive lop := LSend (pkt : list Z) | LPoll (cap : Z).
(** What the caller sees. *)
Inductive lres := RSent (ret : Z) | RGot (bytes : list Z).
Definition spec_step (q : list (list Z)) (o : lop) : list (list Z) * lres :=
  match o with
  | LSend p => if (zlen p =? 0) || (1500 <? zlen p) then (q, RSent 0)
               else if (4 <=? zlen q) then (q, RSent (-11)) else (q ++ [p], RSent (zlen p))
  | LPoll cap => match q with
                 | [] => (q, RGot [])
                 | p :: q' => if cap <? zlen p then (q, RGot []) else (q', RGot p)
                 end
  end.
Fixpoint spec_run (q : list (list Z)) (os : list lop) : list (list Z) * list lres :=
  match os with [] => (q, []) | o :: os => let '(q1, r) := spec_step q o in let '(q2, rs) := spec_run q1 os in (q2, r :: rs) end.

(** ** The code *)
Definition lb_step (s : lbq) (o : lop) : option (lbq * lres) :=
  match o with
  | LSend p => do (s', r) <- loopback_send s p; Some (s', RSent r)
  | LPoll cap => do (s', b) <- loopback_poll s cap; Some (s', RGot b)
  end.
Fixpoint lb_run (s : lbq) (os : list lop) : option (lbq * list lres) :=
  match os with
  | [] => Some (s, [])
  | o :: os => do (s1, r) <- lb_step s o; do (s2, rs) <- lb_run s1 os; Some (s2, r :: rs)
  end.

(** ** Proofs *)
Definition slot_of (s : lbq) (i : nat) : nat := Z.to_nat ((lb_head s + Z.of_nat i) mod 4).
Definition LInv (s : lbq) (q : list (list Z)) : Prop :=
  length (lb_buf s) = 4%nat /\ length (lb_len s) = 4%nat /\ Forall (fun b => zlen b = 1500) (lb_buf s) /\
  0 <= lb_head s < 4 /\ lb_count s = zlen q /\ zlen q <= 4 /\ lb_tail s = (lb_head s + zlen q) mod 4 /\
  forall i p, nth_error q i = Some p -> 0 < zlen p <= 1500 /\ nth_error (lb_len s) (slot_of s i) = Some (zlen p) /\
    exists b, nth_error (lb_buf s) (slot_of s i) = Some b /\ mread b 0 (zlen p) = Some p.

Lemma step_refines s q o : LInv s q -> exists s', lb_step s o = Some (s', snd (spec_step q o)) /\ LInv s' (fst (spec_step q o)).
Proof.
  intros (HB & HL & HS & HH & HC & HQ & HT & HI). destruct o as [p|cap]; cbn [lb_step spec_step].
  - unfold loopback_send. destruct ((zlen p =? 0) || (1500 <? zlen p)) eqn:E1.
    { exists s. split; [reflexivity|]. unfold LInv. auto 10. }
    rewrite HC. destruct (Z.leb_spec 4 (zlen q)) as [L|L].
    { exists s. split; [reflexivity|]. unfold LInv. auto 10. }
    pose proof (zlen_nonneg q). pose proof (zlen_nonneg p).
    assert (KT : (Z.to_nat (lb_tail s) < 4)%nat) by (rewrite HT; lia).
    destruct (nth_error (lb_buf s) (Z.to_nat (lb_tail s))) as [b|] eqn:NB; [|apply nth_error_None in NB; lia].
    assert (Zb : zlen b = 1500) by (apply (proj1 (Forall_forall _ _) HS); eapply nth_error_In; eassumption).
    cbn [obind]. destruct (mwrite_in b 0 p ltac:(lia) ltac:(lia)) as [b' WB]. rewrite WB. cbn [obind fst snd].
    eexists. split; [reflexivity|]. pose proof (mwrite_some _ _ _ _ WB) as (_ & _ & Zb').
    assert (DIFF : forall i, (i < length q)%nat -> slot_of s i <> Z.to_nat (lb_tail s)).
    { intros i Hi. unfold slot_of. rewrite HT. unfold zlen in *. lia. }
    unfold LInv. cbn [lb_buf lb_len lb_head lb_tail lb_count].
    split; [rewrite set_nth_length; assumption|]. split; [rewrite set_nth_length; assumption|].
    split. { apply Forall_forall. intros x Hx. apply set_nth_in in Hx. destruct Hx as [-> |Hx]; [lia|]. apply (proj1 (Forall_forall _ _) HS); assumption. }
    split; [assumption|]. rewrite zlen_app. change (zlen [p]) with 1.
    split; [unfold u32; lia|]. split; [lia|]. split; [rewrite HT; unfold u32; lia|].
    intros i x Hx. destruct (Nat.ltb_spec i (length q)) as [Hi|Hi].
    + rewrite nth_error_app1 in Hx by assumption. destruct (HI i x Hx) as (P1 & P2 & bb & P3 & P4). specialize (DIFF i Hi).
      unfold slot_of in *. cbn [lb_head]. split; [assumption|]. rewrite !set_nth_other by congruence. eauto.
    + rewrite nth_error_app2 in Hx by assumption. destruct (i - length q)%nat as [|k] eqn:K; cbn in Hx; [|destruct k; discriminate].
      assert (x = p) by congruence. subst x. split; [lia|].
      assert (SL : slot_of (mkLb (lb_buf s) (lb_len s) (lb_head s) 0 0) i = Z.to_nat (lb_tail s)).
      { unfold slot_of. cbn [lb_head]. rewrite HT. assert (Z.of_nat i = zlen q) by (unfold zlen; lia). congruence. }
      unfold slot_of in *. cbn [lb_head] in *. rewrite SL. rewrite !set_nth_same by lia. split; [reflexivity|].
      exists b'. split; [reflexivity|]. apply mread_mwrite_same in WB. exact WB.
  - unfold loopback_poll. rewrite HC. destruct q as [|p q].
    { cbn. exists s. split; [reflexivity|]. unfold LInv. auto 10. }
    rewrite zlen_cons in *. pose proof (zlen_nonneg q). destruct (Z.eqb_spec (1 + zlen q) 0); [lia|].
    destruct (HI O p eq_refl) as (P1 & P2 & b & P3 & P4). unfold slot_of in P2, P3. cbn [Z.of_nat] in P2, P3.
    replace (Z.to_nat ((lb_head s + 0) mod 4)) with (Z.to_nat (lb_head s)) in P2, P3 by lia.
    rewrite P2. cbn [obind]. destruct (Z.ltb_spec cap (zlen p)).
    { exists s. split; [reflexivity|]. cbn [fst snd]. unfold LInv. rewrite zlen_cons. auto 10. }
    rewrite P3. cbn [obind]. rewrite P4. cbn [obind fst snd]. eexists. split; [reflexivity|].
    unfold LInv. cbn [lb_buf lb_len lb_head lb_tail lb_count].
    split; [assumption|]. split; [rewrite set_nth_length; assumption|]. split; [assumption|]. split; [unfold u32; lia|].
    split; [unfold u32; lia|]. split; [lia|]. split; [rewrite HT; unfold u32; lia|].
    intros i x Hx. destruct (HI (S i) x Hx) as (Q1 & Q2 & bb & Q3 & Q4).
    assert (Hi : (i < length q)%nat) by (apply nth_error_Some; congruence).
    assert (SL : slot_of (mkLb (lb_buf s) (lb_len s) (u32 (lb_head s + 1) mod 4) 0 0) i = slot_of s (S i)).
    { unfold slot_of, u32. cbn [lb_head]. lia. }
    unfold slot_of in *. cbn [lb_head] in *. rewrite SL. split; [assumption|]. rewrite set_nth_other; [eauto|].
    unfold zlen in *. lia.
Qed.

Lemma init_inv : LInv lb_init [].
Proof.
  unfold LInv, lb_init. cbn [lb_buf lb_len lb_head lb_tail lb_count]. rewrite !repeat_length.
  split; [reflexivity|]. split; [reflexivity|]. split.
  { apply Forall_forall. intros x Hx. apply repeat_spec in Hx. subst. unfold zlen. rewrite repeat_length. lia. }
  change (zlen (@nil (list Z))) with 0. split; [lia|]. split; [reflexivity|]. split; [lia|]. split; [reflexivity|].
  intros i p H. destruct i; discriminate.
Qed.

(** C38.  For every history of sends and polls the loopback device behaves, call
    by call, like the four-packet queue above (and touches no memory outside its buffers). *)
Theorem loopback_is_bounded_fifo : forall os, exists s', lb_run lb_init os = Some (s', snd (spec_run [] os)).
Proof.
  assert (G : forall os s q, LInv s q -> exists s', lb_run s os = Some (s', snd (spec_run q os))).
  { induction os as [|o os IH]; intros s q HI; cbn [lb_run spec_run]; [exists s; reflexivity|].
    destruct (step_refines s q o HI) as (s1 & E & HI1). rewrite E. cbn [obind].
    destruct (spec_step q o) as [q1 r]. cbn [fst snd] in *. destruct (IH s1 q1 HI1) as (s2 & E2). rewrite E2. cbn [obind].
    destruct (spec_run q1 os) as [q2 rs]. exists s2. reflexivity. }
  intros os. apply G. apply init_inv.
Qed.

(** The packets accepted by the sends, and those handed out by the polls. *)
Fixpoint taken (os : list lop) (rs : list lres) : list (list Z) :=
  match os, rs with
  | LSend p :: os, RSent r :: rs => if 0 <? r then p :: taken os rs else taken os rs
  | _ :: os, _ :: rs => taken os rs
  | _, _ => []
  end.
Fixpoint delivered (rs : list lres) : list (list Z) :=
  match rs with
  | RGot [] :: rs => delivered rs
  | RGot b :: rs => b :: delivered rs
  | _ :: rs => delivered rs
  | [] => []
  end.
(** C38.  Every packet a send accepted is received exactly once, unmodified, in
    order, except the at most four still queued; a send that did not accept one
    said so (0 or -EAGAIN). *)
Theorem loopback_conserves : forall os s' rs, lb_run lb_init os = Some (s', rs) ->
  exists pending, taken os rs = delivered rs ++ pending /\ zlen pending <= 4.
Proof.
  intros os s' rs E. destruct (loopback_is_bounded_fifo os) as (s2 & E2). rewrite E in E2. assert (rs = snd (spec_run [] os)) by congruence. subst rs. clear.
  assert (G : forall ops q, zlen q <= 4 -> Forall (fun p => p <> []) q -> exists pending, q ++ taken ops (snd (spec_run q ops)) = delivered (snd (spec_run q ops)) ++ pending /\ zlen pending <= 4).
  { clear. induction ops as [|o os IH]; intros q HQ HN; cbn [spec_run].
    - exists q. cbn. rewrite app_nil_r. auto.
    - destruct o as [p|cap]; cbn [spec_step].
      + destruct ((zlen p =? 0) || (1500 <? zlen p)) eqn:E1.
        { specialize (IH q HQ HN). destruct (spec_run q os) as [q2 rs]. exact IH. }
        destruct (Z.leb_spec 4 (zlen q)).
        { specialize (IH q HQ HN). destruct (spec_run q os) as [q2 rs]. exact IH. }
        assert (P0 : p <> []) by (intros ->; cbn in E1; discriminate).
        specialize (IH (q ++ [p]) ltac:(rewrite zlen_app; change (zlen [p]) with 1; lia) ltac:(apply Forall_app; auto)).
        destruct (spec_run (q ++ [p]) os) as [q2 rs]. cbn [snd taken delivered] in *. destruct (Z.ltb_spec 0 (zlen p)); [|pose proof (zlen_nonneg p); lia].
        rewrite <- app_assoc in IH. exact IH.
      + destruct q as [|p q].
        { specialize (IH [] HQ HN). destruct (spec_run [] os) as [q2 rs]. exact IH. }
        destruct (cap <? zlen p).
        { specialize (IH (p :: q) HQ HN). destruct (spec_run (p :: q) os) as [q2 rs]. exact IH. }
        inversion HN; subst. rewrite zlen_cons in HQ. destruct (IH q ltac:(lia) ltac:(assumption)) as (pend & E & L). destruct (spec_run q os) as [q2 rs].
        cbn [snd taken delivered] in *. exists pend. split; [|assumption]. destruct p as [|b p]; [congruence|]. cbn. cbn in E. rewrite E. reflexivity. }
  apply (G os []); [cbn; lia|constructor].
Qed.

Print Assumptions loopback_is_bounded_fifo.
Print Assumptions loopback_conserves.

Example ex_loop : option_map snd (lb_run lb_init [LSend [1]; LSend [2; 2]; LSend [3]; LSend [4]; LSend [5]; LPoll 9; LSend [6]; LPoll 1; LPoll 2; LPoll 9; LPoll 9; LPoll 9; LPoll 9])
  = Some [RSent 1; RSent 2; RSent 1; RSent 1; RSent (-11); RGot [1]; RSent 1; RGot []; RGot [2; 2]; RGot [3]; RGot [4]; RGot [6]; RGot []].
Proof. vm_compute. reflexivity. Qed.
