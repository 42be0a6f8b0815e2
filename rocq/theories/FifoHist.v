(** Proofs about FIFO histories. *)
From Verif Require Import Base Fifo FifoProofs FifoPush FifoMore FifoSpec.

Definition nr (size x : Z) : Prop := ~ (size - 4 < x < size).
Definition INV (f : fifo) (es : list ent) : Prop :=
  WF f es /\ last_ok f es.
Definition clean (f : fifo) (es : list ent) : Prop :=
  nr (f_size f) (f_head f) /\ nr (f_size f) (f_tail f) /\ Forall (fun x => nr (f_size f) (e_end x)) es.

Lemma clean_no_hz f es len : 0 <= len -> WF f es -> clean f es -> hz_exact f len = false /\ hz_overwrite f = false.
Proof.
  intros Hlen HWF (C1 & C2 & C3). pose proof (WF_whead _ _ HWF) as HW.
  destruct HWF as ((Hm & Hs & Hd & Hh & Ht) & HL & _).
  pose proof (align4_prop (f_head f)) as HA.
  unfold nr in *. unfold hz_exact, hz_overwrite, DESC in *.
  destruct HL as [[Hw Hc]|(es1 & es2 & -> & [HB|HC])].
  - apply chain_le in Hc. lia.
  - destruct HB as (Hn & _). lia.
  - exfalso. destruct HC as (Hn & Hlt & (e1 & Hc1 & Ha & Hex) & Hc2 & He).
    pose proof (align4_prop e1) as HA1.
    apply Forall_app in C3 as [C3 _].
    destruct (list_eq_dec Z.eq_dec (map e_pos es1) []) as [Q|Q].
    + apply map_eq_nil in Q. subst es1. cbn [chain] in Hc1. lia.
    + destruct (exists_last (l := es1)) as (l & x & ->); [intros ->; apply Q; reflexivity|].
      apply chain_app_inv in Hc1 as (t' & _ & Hc1). cbn [chain] in Hc1. destruct Hc1 as [_ Hc1].
      apply Forall_app in C3 as [_ C3]. inversion C3; subst. lia.
Qed.

Lemma last_ok_push f es data f' p : WF f es -> 
  f_last_pos f' = p -> f_last_valid f' = 1 -> last_ok f' (push_abs f es (new_ent p data)).
Proof.
  intros HWF H1 H2 x xs E. unfold push_abs in E. 
  destruct (hz_exact f _); [destruct xs; discriminate|].
  destruct (hz_overwrite f).
  - destruct xs as [|y xs]; [injection E as <-; auto|destruct xs; discriminate].
  - apply app_inj_tail in E as [_ <-]. auto.
Qed.

Lemma nth_desc_spec f : forall k ys xs, WF f (xs ++ ys) ->
  nth_desc k f (match ys with [] => None | y :: _ => Some (e_pos y) end) =
  Some (match nth_error ys k with None => None | Some y => Some (e_pos y) end).
Proof.
  induction k as [|k IH]; intros [|y ys] xs HWF; try reflexivity.
  cbn [nth_desc nth_error]. rewrite (fifo_next_spec _ _ _ _ HWF). cbn [obind].
  apply (IH ys (xs ++ [y])). rewrite <- app_assoc. exact HWF.
Qed.

(** Result of a single step on a well-formed state: never UB; the abstract
    queue follows the specification, except that an accepted push may lose
    entries when a hazard condition holds. *)
Definition step_abs (f : fifo) (es : list ent) (o : op) (r : out) (es' : list ent) : Prop :=
  spec_step (map to_entry es) o r (map to_entry es') \/
  (exists d x, o = OPush d /\ r = RInt 0 /\ (hz_exact f (zlen d) = true \/ hz_overwrite f = true) /\
     es' = push_abs f es x /\ e_data x = d).

Lemma list_upd_split {A} (xs : list A) x x' ys : list_upd (length xs) x' (xs ++ x :: ys) = xs ++ x' :: ys.
Proof.
  unfold list_upd. rewrite firstn_app, Nat.sub_diag, firstn_O, app_nil_r, firstn_all.
  rewrite skipn_app, Nat.sub_diag, skipn_all. reflexivity.
Qed.

Lemma impl_step_ok f es o : INV f es -> op_ok o ->
  exists f' r es', impl_step f o = Some (f', r) /\ INV f' es' /\ f_size f' = f_size f /\
    step_abs f es o r es' /\
    (clean f es -> nr (f_size f) (f_head f') -> clean f' es' /\ spec_step (map to_entry es) o r (map to_entry es')) /\
    (op_aligned o -> (f_head f mod 4 = 0 /\ f_tail f mod 4 = 0 /\ Forall (fun x => e_end x mod 4 = 0) es) ->
       (f_head f' mod 4 = 0 /\ f_tail f' mod 4 = 0 /\ Forall (fun x => e_end x mod 4 = 0) es')).
Proof.
  intros [HWF HLO] Hok. destruct o as [d| | | |k fl tm d|len|base cap]; cbn [impl_step op_aligned].
  - (* push *)
    destruct (fifo_push_spec f es d HWF Hok) as (f' & r & E & H). rewrite E. cbn [obind].
    destruct H as [[-> ->]|(-> & p & HWF' & Hsz & Hlp & Hlv & Htl & Hp4 & Hhd)].
    + exists f, (RInt (-1)), es. split; [reflexivity|]. split; [split; assumption|]. split; [reflexivity|].
      split; [left; constructor|]. split; [intros; split; [assumption|constructor]|auto].
    + exists f', (RInt 0), (push_abs f es (new_ent p d)). split; [reflexivity|].
      split; [split; [assumption|eapply last_ok_push; eassumption]|]. split; [assumption|].
      assert (SP : hz_exact f (zlen d) = false /\ hz_overwrite f = false ->
                   spec_step (map to_entry es) (OPush d) (RInt 0) (map to_entry (push_abs f es (new_ent p d)))).
      { intros [H1 H2]. unfold push_abs. change (e_len (new_ent p d)) with (zlen d). rewrite H1, H2.
        rewrite map_app. apply SPushOk. }
      split; [|split].
      * destruct (hz_exact f (zlen d)) eqn:HX; [right; exists d, (new_ent p d); auto 6|].
        destruct (hz_overwrite f) eqn:HO; [right; exists d, (new_ent p d); auto 6|].
        left. apply SP. auto.
      * intros HC Hnr. pose proof (clean_no_hz f es (zlen d) (zlen_nonneg d) HWF HC) as HZ.
        split; [|apply SP; assumption].
        destruct HZ as [Z1 Z2]. unfold push_abs in *. change (e_len (new_ent p d)) with (zlen d) in *.
        rewrite Z1, Z2 in *. destruct HC as (C1 & C2 & C3).
        unfold clean. rewrite Hsz. split; [assumption|]. split; [rewrite Htl; assumption|].
        apply Forall_app. split; [assumption|]. constructor; [|constructor].
        unfold e_end. change (e_len (new_ent p d)) with (zlen d). cbn [e_pos new_ent].
        pose proof (WF_entry_bounds _ _ (new_ent p d) HWF' ltac:(apply in_or_app; right; left; reflexivity)) as (HB0 & HB & _). cbn [e_pos new_ent] in HB0.
        unfold e_end in HB. change (e_len (new_ent p d)) with (zlen d) in HB. cbn [e_pos new_ent] in HB.
        destruct Hhd as [Hhd|Hhd]; [rewrite <- Hhd; assumption|].
        (* head = 0: the write ended exactly at size *)
        unfold nr. intros Habs.
        assert (PS := E). clear - PS Habs Hhd HB HB0 Hok HWF Hlp.
        rewrite fifo_push_place in PS.
        assert (HU : u32 (DESC + zlen d) = DESC + zlen d).
        { unfold u32. apply Z.mod_small. pose proof (zlen_nonneg d). cbn [op_ok] in Hok. unfold DESC in *. lia. }
        rewrite HU in PS.
        destruct (place f (DESC + zlen d)) as [[p' hw]|]; [|discriminate].
        destruct (mwrite (f_data f) p' _) as [m1|]; [|discriminate]. cbn [obind] in PS.
        destruct (mwrite m1 _ d) as [m2|]; [|discriminate]. cbn [obind] in PS.
        destruct (p' + DESC + zlen d =? f_size f) eqn:EQ; injection PS as <-; cbn [f_last_pos f_head] in *; subst; pose proof (zlen_nonneg d); unfold DESC in *; lia.
      * intros Hal (A1 & A2 & A3). split; [|split].
        -- destruct Hhd as [Hhd|Hhd]; rewrite Hhd; [unfold DESC; lia|reflexivity].
        -- congruence.
        -- unfold push_abs. destruct (hz_exact f _); [constructor|].
           assert (NE : e_end (new_ent p d) mod 4 = 0).
           { unfold e_end. change (e_len (new_ent p d)) with (zlen d). cbn [e_pos new_ent]. unfold DESC. lia. }
           destruct (hz_overwrite f); [constructor; [assumption|constructor]|].
           apply Forall_app. split; [assumption|]. constructor; [assumption|constructor].
  - (* pop *)
    destruct es as [|x es].
    + rewrite (fifo_pop_empty _ HWF). cbn [obind].
      exists f, (REntry None), []. split; [reflexivity|]. split; [split; assumption|]. split; [reflexivity|].
      split; [left; constructor|]. split; [intros; split; [assumption|constructor]|auto].
    + destruct (fifo_pop_cons _ _ _ HWF) as (f' & E & HWF' & Hdt & Hsz & Hlp & Hlv & Hhd & Htl).
      rewrite E. cbn [obind].
      assert (HLE : load_entry f' (e_pos x) = Some (to_entry x)).
      { unfold load_entry, load_desc, load_payload. rewrite Hdt.
        exact (load_entry_spec _ _ x HWF (or_introl eq_refl)). }
      rewrite HLE. cbn [obind].
      exists f', (REntry (Some (to_entry x))), es. split; [reflexivity|].
      split; [split; [assumption|]|].
      { intros y ys ->. rewrite Hlp. rewrite Hlv by (destruct ys; discriminate).
        apply (HLO y (x :: ys)). reflexivity. }
      split; [assumption|]. split; [left; constructor|]. split.
      * intros (C1 & C2 & C3) Hnr. split; [|constructor]. unfold clean. rewrite Hsz.
        inversion C3; subst. split; [assumption|]. split; [|assumption].
        destruct HWF as ((_ & Hs & _) & _). unfold DESC in *.
        destruct Htl as [-> | ->]; [assumption|unfold nr; lia].
      * intros _ (A1 & A2 & A3). inversion A3; subst. split; [congruence|]. split; [|assumption].
        destruct Htl as [-> | ->]; [assumption|reflexivity].
  - (* peek *)
    destruct (fifo_peek_spec _ _ HWF) as (f' & E & HWF' & Hsz & Hdt & Hlp & Hlv & Hhd & Htl). rewrite E.
    assert (HLO' : last_ok f' es) by (intros y ys Ey; rewrite Hlp, Hlv; apply (HLO y ys Ey)).
    assert (HCL : clean f es -> clean f' es).
    { intros (C1 & C2 & C3). unfold clean. rewrite Hsz, Hhd. split; [assumption|]. split; [|assumption].
      destruct Htl as [-> | (x & Hx & ->)]; [assumption|].
      pose proof (WF_entry_bounds _ _ _ HWF Hx) as (? & He & ?). pose proof (e_len_nonneg x).
      unfold nr, e_end, DESC in *. lia. }
    assert (HAL : f_tail f mod 4 = 0 -> f_tail f' mod 4 = 0).
    { destruct Htl as [-> | (x & Hx & ->)]; [auto|].
      pose proof (WF_entry_bounds _ _ _ HWF Hx) as (? & He & ?). auto. }
    destruct es as [|x es].
    + exists f', (REntry None), []. split; [reflexivity|]. split; [split; assumption|]. split; [assumption|].
      split; [left; constructor|]. split; [intros; split; [auto|constructor]|].
      intros _ (A1 & A2 & A3). rewrite Hhd. auto.
    + rewrite (load_entry_spec _ _ x HWF' (or_introl eq_refl)). cbn [obind].
      exists f', (REntry (Some (to_entry x))), (x :: es). split; [reflexivity|]. split; [split; assumption|].
      split; [assumption|]. split; [left; constructor|]. split; [intros; split; [auto|constructor]|].
      intros _ (A1 & A2 & A3). rewrite Hhd. auto.
  - (* walk *)
    destruct (fifo_walk_spec _ _ HWF) as (f' & E & HWF' & Hsz & Hdt & Hlp & Hlv & Hhd & Htl). rewrite E. cbn [obind].
    assert (HLO' : last_ok f' es) by (intros y ys Ey; rewrite Hlp, Hlv; apply (HLO y ys Ey)).
    exists f', (RList (map to_entry es)), es. split; [reflexivity|]. split; [split; assumption|]. split; [assumption|].
    split; [left; constructor|]. split.
    + intros (C1 & C2 & C3) _. split; [|constructor]. unfold clean. rewrite Hsz, Hhd.
      split; [assumption|]. split; [|assumption].
      destruct Htl as [-> | (x & Hx & ->)]; [assumption|].
      pose proof (WF_entry_bounds _ _ _ HWF Hx) as (? & He & ?). pose proof (e_len_nonneg x).
      unfold nr, e_end, DESC in *. lia.
    + intros _ (A1 & A2 & A3). rewrite Hhd. split; [assumption|]. split; [|assumption].
      destruct Htl as [-> | (x & Hx & ->)]; [auto|].
      pose proof (WF_entry_bounds _ _ _ HWF Hx) as (? & He & ?). auto.
  - (* update *)
    destruct (fifo_peek_spec _ _ HWF) as (f' & E & HWF' & Hsz & Hdt & Hlp & Hlv & Hhd & Htl). rewrite E.
    assert (HLO' : last_ok f' es) by (intros y ys Ey; rewrite Hlp, Hlv; apply (HLO y ys Ey)).
    assert (HCL : clean f es -> clean f' es).
    { intros (C1 & C2 & C3). unfold clean. rewrite Hsz, Hhd. split; [assumption|]. split; [|assumption].
      destruct Htl as [-> | (x & Hx & ->)]; [assumption|].
      pose proof (WF_entry_bounds _ _ _ HWF Hx) as (? & He & ?). pose proof (e_len_nonneg x).
      unfold nr, e_end, DESC in *. lia. }
    assert (HAL : f_tail f mod 4 = 0 -> f_tail f' mod 4 = 0).
    { destruct Htl as [-> | (x & Hx & ->)]; [auto|].
      pose proof (WF_entry_bounds _ _ _ HWF Hx) as (? & He & ?). auto. }
    rewrite (nth_desc_spec f' k es [] HWF'). cbn [obind].
    destruct (nth_error es k) as [x|] eqn:EK.
    + apply nth_error_split in EK as (xs & ys & -> & <-).
      assert (Hin : In x (xs ++ x :: ys)) by (apply in_or_app; right; left; reflexivity).
      rewrite (load_desc_spec _ _ _ HWF' Hin). cbn [obind d_len e_desc].
      assert (HNE : nth_error (map to_entry (xs ++ x :: ys)) (length xs) = Some (to_entry x)).
      { rewrite map_app. rewrite nth_error_app2 by (rewrite map_length; lia).
        rewrite map_length, Nat.sub_diag. reflexivity. }
      destruct (e_len x =? zlen d) eqn:EL.
      * destruct (fifo_update_spec f' xs x ys fl tm d HWF' ltac:(lia)) as (f'' & E2 & HWF'' & Hsz2 & Hlp2 & Hlv2 & Hhd2 & Htl2).
        rewrite E2. cbn [obind]. exists f'', (RInt 0), (xs ++ upd_ent x fl tm d :: ys).
        split; [reflexivity|].
        assert (HSP : spec_step (map to_entry (xs ++ x :: ys)) (OUpdate (length xs) fl tm d) (RInt 0)
                       (map to_entry (xs ++ upd_ent x fl tm d :: ys))).
        { replace (map to_entry (xs ++ upd_ent x fl tm d :: ys)) with
            (list_upd (length xs) {| en_flags := u32 fl; en_time := u32 tm; en_data := d |} (map to_entry (xs ++ x :: ys))).
          - apply SUpd with (x := to_entry x); [assumption|]. cbn [to_entry en_data]. unfold e_len in EL. lia.
          - rewrite !map_app. cbn [map]. rewrite <- (map_length to_entry xs) at 1.
            rewrite list_upd_split. reflexivity. }
        assert (HEE : e_end (upd_ent x fl tm d) = e_end x).
        { unfold e_end, e_len in *. cbn [upd_ent e_pos e_data] in *. lia. }
        split; [split; [assumption|]|].
        { intros y zs Ey. rewrite Hlp2, Hlv2.
          destruct ys as [|z ys] using rev_ind.
          - apply app_inj_tail in Ey as [_ <-]. cbn [e_pos upd_ent]. apply (HLO' x xs). reflexivity.
          - clear IHys. rewrite app_comm_cons, app_assoc in Ey. apply app_inj_tail in Ey as [_ <-].
            apply (HLO' z (xs ++ x :: ys)). rewrite <- app_assoc. reflexivity. }
        split; [congruence|]. split; [left; assumption|]. split.
        -- intros HC _. split; [|assumption]. apply HCL in HC as (C1 & C2 & C3). unfold clean.
           rewrite Hsz2, Hhd2, Htl2. split; [assumption|]. split; [assumption|].
           apply Forall_app in C3 as [C3 C4]. inversion C4; subst. apply Forall_app. split; [assumption|].
           constructor; [rewrite HEE; assumption|assumption].
        -- intros _ (A1 & A2 & A3). rewrite Hhd2, Htl2, Hhd. split; [assumption|]. split; [auto|].
           apply Forall_app in A3 as [C3 C4]. inversion C4; subst. apply Forall_app. split; [assumption|].
           constructor; [rewrite HEE; assumption|assumption].
      * exists f', (RInt (-1)), (xs ++ x :: ys). split; [reflexivity|]. split; [split; assumption|].
        assert (HSP : spec_step (map to_entry (xs ++ x :: ys)) (OUpdate (length xs) fl tm d) (RInt (-1))
                       (map to_entry (xs ++ x :: ys))).
        { apply SUpdLen with (x := to_entry x); [assumption|]. cbn [to_entry en_data]. unfold e_len in EL. lia. }
        split; [assumption|]. split; [left; assumption|]. split; [intros; split; auto|].
        intros _ (A1 & A2 & A3). rewrite Hhd. auto.
    + exists f', (RInt (-1)), es. split; [reflexivity|]. split; [split; assumption|].
      assert (HSP : spec_step (map to_entry es) (OUpdate k fl tm d) (RInt (-1)) (map to_entry es)).
      { apply SUpdNone. rewrite nth_error_map, EK. reflexivity. }
      split; [assumption|]. split; [left; assumption|]. split; [intros; split; auto|].
      intros _ (A1 & A2 & A3). rewrite Hhd. auto.
  - exists f, (RBool (fifo_can_push_len f len)), es. split; [reflexivity|]. split; [split; assumption|].
    split; [reflexivity|]. split; [left; constructor|]. split; [intros; split; [assumption|constructor]|auto].
  - exists f, (RInt (fifo_max_push_payload f base cap)), es. split; [reflexivity|]. split; [split; assumption|].
    split; [reflexivity|]. split; [left; constructor|]. split; [intros; split; [assumption|constructor]|auto].
Qed.

Lemma INV_init data size : size_ok size -> zlen data = size -> INV (fifo_init data size) [].
Proof.
  intros [H1 H2] H3. split; [apply WF_init; assumption|]. intros x xs E. destruct xs; discriminate.
Qed.

Lemma impl_run_safe : forall os f es, INV f es -> Forall op_ok os ->
  exists f' outs es', impl_run f os = Some (f', outs) /\ INV f' es' /\ f_size f' = f_size f /\ length outs = length os.
Proof.
  induction os as [|o os IH]; intros f es HI HO; cbn [impl_run].
  - exists f, [], es. auto.
  - inversion HO; subst.
    destruct (impl_step_ok f es o HI ltac:(assumption)) as (f1 & r & es1 & E & HI1 & Hs & _).
    rewrite E. cbn [obind].
    destruct (IH f1 es1 HI1 ltac:(assumption)) as (f2 & rs & es2 & E2 & HI2 & Hs2 & HL). rewrite E2. cbn [obind].
    exists f2, (r :: rs), es2. split; [reflexivity|]. split; [assumption|]. split; [congruence|]. cbn; lia.
Qed.

Lemma impl_run_clean : forall os f es, INV f es -> clean f es -> Forall op_ok os ->
  (forall n f' outs, impl_run f (firstn n os) = Some (f', outs) -> nr (f_size f') (f_head f')) ->
  exists f' outs es', impl_run f os = Some (f', outs) /\ INV f' es' /\
    spec_run (map to_entry es) os outs (map to_entry es').
Proof.
  induction os as [|o os IH]; intros f es HI HC HO HN; cbn [impl_run].
  - exists f, [], es. split; [reflexivity|]. split; [assumption|]. constructor.
  - inversion HO; subst.
    destruct (impl_step_ok f es o HI ltac:(assumption)) as (f1 & r & es1 & E & HI1 & Hs & _ & HCl & _).
    assert (HN1 : nr (f_size f) (f_head f1)).
    { rewrite <- Hs. apply (HN 1%nat f1 [r]). cbn [firstn impl_run]. rewrite E. reflexivity. }
    destruct (HCl HC HN1) as [HC1 HS1].
    rewrite E. cbn [obind].
    destruct (IH f1 es1 HI1 HC1 ltac:(assumption)) as (f2 & rs & es2 & E2 & HI2 & HS2).
    { intros n f' outs Hr. apply (HN (S n) f' (r :: outs)). cbn [firstn impl_run]. rewrite E. cbn [obind].
      rewrite Hr. reflexivity. }
    rewrite E2. cbn [obind]. exists f2, (r :: rs), es2. split; [reflexivity|]. split; [assumption|].
    econstructor; eassumption.
Qed.

Lemma impl_run_aligned_nr : forall os f es, INV f es -> Forall op_ok os -> Forall op_aligned os ->
  (f_head f mod 4 = 0 /\ f_tail f mod 4 = 0 /\ Forall (fun x => e_end x mod 4 = 0) es) ->
  forall f' outs, impl_run f os = Some (f', outs) -> nr (f_size f') (f_head f').
Proof.
  induction os as [|o os IH]; intros f es HI HO HA HM f' outs; cbn [impl_run].
  - intros H. injection H as <- <-. destruct HI as [((Hm & Hs & _) & _) _]. unfold nr. destruct HM as (HM & _). lia.
  - inversion HO; subst. inversion HA; subst.
    destruct (impl_step_ok f es o HI ltac:(assumption)) as (f1 & r & es1 & E & HI1 & Hs & _ & _ & HAl).
    rewrite E. cbn [obind]. destruct (impl_run f1 os) as [[f2 rs]|] eqn:ER; [|discriminate]. cbn [obind].
    intros H. injection H as <- <-. eapply (IH f1 es1); eauto.
Qed.
