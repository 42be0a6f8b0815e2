(** Properties C01-C03: the packet FIFO behind every socket's datagram and
    transmit buffer. *)
From Verif Require Import Base Fifo FifoProofs FifoPush FifoMore FifoSpec FifoHist.

(** C02: no history of operations reads or writes outside the storage (the
    model returns [None] on any out-of-bounds access). *)
Theorem fifo_memory_safe : forall size data os,
  size_ok size -> zlen data = size -> Forall op_ok os ->
  exists f outs, impl_run (fifo_init data size) os = Some (f, outs) /\
    zlen (f_data f) = size /\ length outs = length os.
Proof.
  intros size data os Hs Hd HO.
  destruct (impl_run_safe os _ [] (INV_init data size Hs Hd) HO) as (f & outs & es & E & [HW _] & Hsz & HL).
  exists f, outs. split; [assumption|]. split; [|assumption].
  destruct HW as ((_ & _ & HD & _) & _). rewrite HD, Hsz. reflexivity.
Qed.

(** C01 (partial): histories in which the next free position never falls in
    the last three bytes of the storage behave as a lossless queue. *)
Theorem fifo_lossless_queue_partial : forall size data os,
  size_ok size -> zlen data = size -> Forall op_ok os ->
  never_ragged (fifo_init data size) os ->
  exists f outs q, impl_run (fifo_init data size) os = Some (f, outs) /\ spec_run [] os outs q.
Proof.
  intros size data os Hs Hd HO HN.
  assert (HC : clean (fifo_init data size) []).
  { destruct Hs as [H1 H2]. unfold clean, nr; cbn. unfold DESC in *. split; [lia|]. split; [lia|constructor]. }
  destruct (impl_run_clean os _ [] (INV_init data size Hs Hd) HC HO HN) as (f & outs & es & E & _ & HS).
  exists f, outs, (map to_entry es). auto.
Qed.

(** C01 (partial): in particular whenever every payload length is a multiple
    of four, without any condition on positions. *)
Theorem fifo_lossless_queue_aligned_partial : forall size data os,
  size_ok size -> zlen data = size -> Forall op_ok os -> Forall op_aligned os ->
  exists f outs q, impl_run (fifo_init data size) os = Some (f, outs) /\ spec_run [] os outs q.
Proof.
  intros size data os Hs Hd HO HA. apply fifo_lossless_queue_partial; try assumption.
  intros n f outs Hr. eapply (impl_run_aligned_nr _ (fifo_init data size) []); [| | | |exact Hr].
  - apply INV_init; assumption.
  - apply Forall_forall. intros x Hx. rewrite Forall_forall in HO. apply HO.
    rewrite <- (firstn_skipn n os). apply in_or_app. left. assumption.
  - apply Forall_forall. intros x Hx. rewrite Forall_forall in HA. apply HA.
    rewrite <- (firstn_skipn n os). apply in_or_app. left. assumption.
  - cbn. auto.
Qed.

(** Without that condition the claim is false: with the shipped receive buffer
    size, fourteen queued datagrams vanish when a fifteenth is accepted. *)
Definition refute_lens : list (list Z) :=
  repeat (repeat 7 (Z.to_nat 1514)) 13 ++ [repeat 8 (Z.to_nat 546); repeat 9 (Z.to_nat 100)].
Definition refute_ops : list op := map OPush refute_lens ++ [OWalk].

Lemma spec_pushes_count : forall ds q l q',
  spec_run q (map OPush ds ++ [OWalk]) (map (fun _ => RInt 0) ds ++ [RList l]) q' ->
  length l = (length q + length ds)%nat.
Proof.
  induction ds as [|d ds IH]; cbn [map app]; intros q l q' H.
  - inversion H; subst. match goal with H : spec_step _ _ _ _ |- _ => inversion H; subst end. cbn; lia.
  - inversion H; subst. match goal with H : spec_step _ _ _ _ |- _ => inversion H; subst end.
    match goal with H : spec_run _ _ _ _ |- _ => apply IH in H; rewrite app_length in H end. cbn in *. lia.
Qed.

Theorem fifo_lossless_queue_refuted :
  exists size data os f outs,
    size = 20480 /\ size_ok size /\ zlen data = size /\ Forall op_ok os /\
    impl_run (fifo_init data size) os = Some (f, outs) /\ forall q, ~ spec_run [] os outs q.
Proof.
  exists 20480, (repeat 0 (Z.to_nat 20480)), refute_ops.
  assert (HR : exists f, impl_run (fifo_init (repeat 0 (Z.to_nat 20480)) 20480) refute_ops =
     Some (f, map (fun _ => RInt 0) refute_lens ++
              [RList [{| en_flags := 0; en_time := 0; en_data := repeat 9 (Z.to_nat 100) |}]])).
  { eexists. vm_compute. reflexivity. }
  destruct HR as [f HR]. exists f. eexists. split; [reflexivity|]. split; [unfold size_ok, DESC; lia|].
  split; [vm_compute; reflexivity|]. split.
  { unfold refute_ops. apply Forall_app. split; [|repeat constructor].
    apply Forall_forall. intros o Ho. apply in_map_iff in Ho as (d & <- & Hd). cbn [op_ok].
    unfold refute_lens in Hd. apply in_app_or in Hd as [Hd|Hd].
    - apply repeat_spec in Hd. subst. vm_compute. reflexivity.
    - destruct Hd as [<- | [<- | []]]; vm_compute; reflexivity. }
  split; [exact HR|]. intros q H. apply spec_pushes_count in H. discriminate H.
Qed.

(** C01, all histories: whatever happened before, an operation either follows
    the queue specification or is an accepted push that discards the whole
    previous contents (never reorders, duplicates or alters a packet). *)
Theorem fifo_step_exact_or_discards : forall size data os f outs o,
  size_ok size -> zlen data = size -> Forall op_ok (os ++ [o]) ->
  impl_run (fifo_init data size) os = Some (f, outs) ->
  exists q f' r q', (* q: the packets a walk over f returns *)
    (exists g, fifo_walk f = Some (g, q)) /\ impl_step f o = Some (f', r) /\
    (exists g, fifo_walk f' = Some (g, q')) /\
    (spec_step q o r q' \/
     (exists d, o = OPush d /\ r = RInt 0 /\
        (q' = [] \/ q' = [{| en_flags := 0; en_time := 0; en_data := d |}]))).
Proof.
  intros size data os f outs o Hs Hd HO HR. apply Forall_app in HO as [HO1 HO2]. inversion HO2; subst.
  destruct (impl_run_safe os _ [] (INV_init data _ Hs eq_refl) HO1) as (f1 & outs1 & es & E & HI & _).
  rewrite HR in E. injection E as <- <-.
  destruct (impl_step_ok f es o HI ltac:(assumption)) as (f' & r & es' & ES & HI' & _ & HA & _).
  destruct (fifo_walk_spec _ _ (proj1 HI)) as (g & EW & _).
  destruct (fifo_walk_spec _ _ (proj1 HI')) as (g' & EW' & _).
  exists (map to_entry es), f', r, (map to_entry es').
  split; [eauto|]. split; [assumption|]. split; [eauto|].
  destruct HA as [HA|(d & x & -> & -> & HZ & -> & Hx)]; [left; assumption|].
  right. exists d. split; [reflexivity|]. split; [reflexivity|].
  (* the new entry of a push has zero flags and time *)
  assert (HP := ES). cbn [impl_step] in HP.
  destruct (fifo_push_spec f es d (proj1 HI) ltac:(assumption)) as (f2 & r2 & E2 & HQ).
  rewrite E2 in HP. cbn [obind] in HP. injection HP as -> ->.
  destruct HQ as [[HQ _]|(_ & p & HWp & _)]; [discriminate|].
  assert (EQ : map to_entry (push_abs f es x) = map to_entry (push_abs f es (new_ent p d))).
  { destruct (fifo_walk_spec _ _ HWp) as (g2 & EW2 & _). rewrite EW' in EW2. injection EW2 as _ EQ. exact EQ. }
  rewrite EQ. unfold push_abs. change (e_len (new_ent p d)) with (zlen d).
  destruct (hz_exact f (zlen d)); [left; reflexivity|].
  destruct (hz_overwrite f); [right; reflexivity|].
  destruct HZ; discriminate.
Qed.

(** C03: the admission predicate is exact. *)
Theorem fifo_can_push_exact : forall size data os f outs d,
  size_ok size -> zlen data = size -> Forall op_ok os -> DESC + zlen d < 2^32 ->
  impl_run (fifo_init data size) os = Some (f, outs) ->
  exists f' r, fifo_push f d = Some (f', r) /\
    (r = 0 <-> fifo_can_push_len f (zlen d) = true) /\ (r = 0 \/ (r = -1 /\ f' = f)).
Proof.
  intros size data os f outs d Hs Hd HO HN HR.
  destruct (impl_run_safe os _ [] (INV_init data _ Hs Hd) HO) as (f1 & outs1 & es & E & [HW _] & _).
  rewrite HR in E. injection E as <- <-.
  destruct (fifo_push_spec f es d HW HN) as (f' & r & EP & H). exists f', r. split; [assumption|].
  pose proof EP as EP2. rewrite fifo_push_place in EP2.
  rewrite (WF_place_can f es) by (first [assumption|apply zlen_nonneg]).
  assert (HU : u32 (DESC + zlen d) = DESC + zlen d).
  { unfold u32. apply Z.mod_small. pose proof (zlen_nonneg d). unfold DESC in *. lia. }
  rewrite HU in EP2.
  destruct (place f (DESC + zlen d)) as [[p hw]|].
  - destruct H as [[-> ->]|[-> _]]; [|split; [tauto|left; reflexivity]].
    exfalso. destruct (mwrite (f_data f) p _) as [m1|]; [|discriminate]. cbn [obind] in EP2.
    destruct (mwrite m1 _ d) as [m2|]; [|discriminate]. cbn [obind] in EP2.
    destruct (p + DESC + zlen d =? f_size f); discriminate.
  - injection EP2 as <- <-. split; [|right; auto]. split; [discriminate|discriminate].
Qed.

(** C03: the sizing helper returns the largest payload that fits. *)
Theorem fifo_max_payload_is_maximum : forall size data os f outs base cap,
  size_ok size -> zlen data = size -> Forall op_ok os ->
  0 <= base -> 0 <= cap -> DESC + base + cap < 2^32 ->
  impl_run (fifo_init data size) os = Some (f, outs) ->
  let r := fifo_max_push_payload f base cap in
  0 <= r <= cap /\ (r <> 0 -> fifo_can_push_len f (base + r) = true) /\
  (forall l, r < l <= cap -> fifo_can_push_len f (base + l) = false).
Proof.
  intros size data os f outs base cap Hs Hd HO Hb Hc HN HR.
  destruct (impl_run_safe os _ [] (INV_init data _ Hs Hd) HO) as (f1 & outs1 & es & E & [HW _] & _).
  rewrite HR in E. injection E as <- <-.
  pose proof (max_push_payload_spec f es base cap HW Hb Hc HN) as (H1 & H2 & H3).
  split; [assumption|]. split; [|assumption]. intros Hr. destruct H2; [contradiction|assumption].
Qed.

(** C03: a drained FIFO is never wedged: it accepts every packet up to half of
    the storage. *)
Theorem fifo_drained_accepts : forall size data os f outs len,
  size_ok size -> zlen data = size -> Forall op_ok os ->
  impl_run (fifo_init data size) (os ++ [OPop]) = Some (f, outs ++ [REntry None]) ->
  0 <= len -> 2 * (DESC + len) + 4 <= size -> fifo_can_push_len f len = true.
Proof.
  intros size data os f outs len Hs Hd HO HR Hl HN.
  assert (RA : forall os1 f0 o f' o', impl_run f0 (os1 ++ [o]) = Some (f', o') ->
    exists f1 o1 r, impl_run f0 os1 = Some (f1, o1) /\ impl_step f1 o = Some (f', r) /\ o' = o1 ++ [r]).
  { induction os1 as [|a os1 IH]; cbn [app impl_run]; intros f0 o f' o' H.
    - destruct (impl_step f0 o) as [[f1 r]|] eqn:ES; [|discriminate]. cbn [obind] in H. injection H as <- <-.
      exists f0, [], r. repeat split; assumption.
    - destruct (impl_step f0 a) as [[f1 r]|]; [|discriminate]. cbn [obind] in *.
      destruct (impl_run f1 (os1 ++ [o])) as [[f2 rs]|] eqn:E; [|discriminate]. cbn [obind] in H. injection H as <- <-.
      destruct (IH _ _ _ _ E) as (g & o1 & r' & E1 & E2 & ->). rewrite E1. cbn [obind].
      exists g, (r :: o1), r'. split; [reflexivity|]. split; [assumption|]. reflexivity. }
  apply RA in HR as (f1 & o1 & r & E1 & E2 & EO). apply app_inj_tail in EO as [_ <-].
  destruct (impl_run_safe os _ [] (INV_init data _ Hs Hd) HO) as (f2 & o2 & es & E & [HW _] & Hsz & _).
  rewrite E1 in E. injection E as <- <-.
  destruct es as [|x es].
  - cbn [impl_step] in E2. rewrite (fifo_pop_empty _ HW) in E2. cbn [obind] in E2. injection E2 as <-.
    apply can_push_empty; [assumption|assumption|]. rewrite Hsz. exact HN.
  - exfalso. cbn [impl_step] in E2. destruct (fifo_pop_cons _ _ _ HW) as (f' & EP & _). rewrite EP in E2.
    cbn [obind] in E2. destruct (load_entry f' (e_pos x)); discriminate.
Qed.

(** Non-vacuity. *)
Definition demo_ops : list op :=
  [OPush [1;2;3;4]; OPush [5;6;7;8;9;10;11;12]; OPeek; OUpdate 1 3 9 [9;9;9;9;9;9;9;9]; OPop;
   OPush [13;14;15;16]; OWalk; OCan 20; OMax 4 30; OPop; OPush [1;1;1;1]; OPop; OPop; OPop].
Example demo_hyps : size_ok 64 /\ Forall op_ok demo_ops /\ Forall op_aligned demo_ops.
Proof. split; [unfold size_ok, DESC; lia|]. split; repeat constructor. Qed.
Example demo_run : exists f, impl_run (fifo_init (repeat 0 64) 64) demo_ops = Some (f,
  [RInt 0; RInt 0; REntry (Some {| en_flags := 0; en_time := 0; en_data := [1;2;3;4] |}); RInt 0;
   REntry (Some {| en_flags := 0; en_time := 0; en_data := [1;2;3;4] |}); RInt 0;
   RList [{| en_flags := 3; en_time := 9; en_data := [9;9;9;9;9;9;9;9] |};
          {| en_flags := 0; en_time := 0; en_data := [13;14;15;16] |}]; RBool false; RInt 0;
   REntry (Some {| en_flags := 3; en_time := 9; en_data := [9;9;9;9;9;9;9;9] |}); RInt 0;
   REntry (Some {| en_flags := 0; en_time := 0; en_data := [13;14;15;16] |});
   REntry (Some {| en_flags := 0; en_time := 0; en_data := [1;1;1;1] |}); REntry None]).
Proof. eexists. vm_compute. reflexivity. Qed.
Example demo_wrap : exists f outs,
  impl_run (fifo_init (repeat 0 64) 64)
    [OPush (repeat 1 8); OPush (repeat 2 16); OPop; OPush (repeat 3 8); OWalk] = Some (f, outs) /\
  f_hwrap f <> 0 /\ nth 4 outs (RInt 7) = RList [{| en_flags := 0; en_time := 0; en_data := repeat 2 16 |};
                                                {| en_flags := 0; en_time := 0; en_data := repeat 3 8 |}].
Proof. do 2 eexists. vm_compute. repeat split. discriminate. Qed.
Example demo_ragged : never_ragged (fifo_init (repeat 0 64) 64) [OPush [1;2;3]; OPush [4]; OPop].
Proof.
  intros n f outs. destruct n as [|[|[|[|n]]]]; vm_compute; intros H; injection H as <- _; intros [H1 H2]; discriminate.
Qed.

Print Assumptions fifo_memory_safe.
Print Assumptions fifo_lossless_queue_partial.
Print Assumptions fifo_lossless_queue_aligned_partial.
Print Assumptions fifo_lossless_queue_refuted.
Print Assumptions fifo_step_exact_or_discards.
Print Assumptions fifo_can_push_exact.
Print Assumptions fifo_max_payload_is_maximum.
Print Assumptions fifo_drained_accepts.
