(** Proofs about fifo_next, descriptor walks, in-place updates, and the
    acceptance predicates. *)
From Verif Require Import Base Fifo FifoProofs FifoPush.

(** ** fifo_next *)
Lemma next_pad pos len : 0 <= pos -> 0 <= len ->
  pos + (len + (4 - (pos + len) mod 4) mod 4) = align4 (pos + len).
Proof. intros. unfold align4. lia. Qed.

Lemma fifo_next_eq f es x : WF f es -> In x es ->
  fifo_next f (e_pos x) =
  Some (let np := align4 (e_end x) in
        let np := if negb (f_hwrap f =? 0) && (e_pos x <? f_hwrap f) && (f_hwrap f <=? np) then 0
                  else if f_size f <=? np then 0 else np in
        let sp := whead f in
        let sp := if negb (f_hwrap f =? 0) && (sp =? f_hwrap f) then 0 else sp in
        if np =? sp then None else Some np).
Proof.
  intros HWF Hin. pose proof (WF_entry_bounds _ _ _ HWF Hin) as (Hp & He & Ha).
  pose proof HWF as ((Hm & Hs & Hd & Hh & Ht) & _). pose proof (e_len_nonneg x) as HN.
  unfold fifo_next. rewrite (load_desc_spec _ _ _ HWF Hin). cbn [obind d_len e_desc].
  unfold e_end in *.
  destruct (f_size f <=? e_pos x) eqn:E1; [unfold DESC in *; lia|].
  destruct (f_size f - DESC <? e_len x) eqn:E2; [unfold DESC in *; lia|].
  set (L := DESC + e_len x + (4 - (e_pos x + (DESC + e_len x)) mod 4) mod 4).
  assert (HL : e_pos x + L = align4 (e_pos x + DESC + e_len x)).
  { unfold L. rewrite next_pad; [f_equal; lia|lia|unfold DESC; lia]. }
  destruct (f_size f - e_pos x <? L) eqn:E3.
  { pose proof (align4_prop (e_pos x + DESC + e_len x)). lia. }
  rewrite HL. cbv zeta. fold (whead f).
  destruct (_ =? _); reflexivity.
Qed.

Lemma WF_whead f es : WF f es ->
  (f_size f <= align4 (f_head f) /\ whead f = 0) \/
  (align4 (f_head f) < f_size f /\ whead f = align4 (f_head f)).
Proof.
  intros ((Hm & Hs & Hd & Hh & Ht) & _). unfold whead. rewrite align_head_spec by lia.
  destruct (f_size f <=? align4 (f_head f)) eqn:EA; lia.
Qed.

Lemma fifo_next_spec f xs x ys : WF f (xs ++ x :: ys) ->
  fifo_next f (e_pos x) = Some (match ys with [] => None | y :: _ => Some (e_pos y) end).
Proof.
  intros HWF. assert (Hin : In x (xs ++ x :: ys)) by (apply in_or_app; right; left; reflexivity).
  rewrite (fifo_next_eq _ _ _ HWF Hin). f_equal. cbv zeta.
  pose proof (WF_whead _ _ HWF) as HW.
  pose proof (WF_entry_bounds _ _ _ HWF Hin) as (Hp & He & Ha0).
  pose proof HWF as ((Hm & Hs & Hd & Hh & Ht) & HL & _).
  pose proof (align4_prop (f_head f)) as HA. pose proof (align4_prop (e_end x)) as HAx.
  pose proof (e_len_nonneg x) as HN.
  assert (SEG : forall t e y zs, chain t (xs ++ x :: y :: zs) e -> e_pos y = align4 (e_end x) /\ e_end x <= e_pos y /\ e_pos y + DESC <= e).
  { intros t e y zs Hc. apply chain_app_inv in Hc as (t' & _ & Hc). cbn [chain] in Hc.
    destruct Hc as (_ & Hy & Hc). pose proof (chain_le _ _ _ Hc). pose proof (e_len_nonneg y).
    unfold e_end in *. lia. }
  remember (align4 (e_end x)) as np0 eqn:Hnp0.
  set (np := if negb (f_hwrap f =? 0) && (e_pos x <? f_hwrap f) && (f_hwrap f <=? np0) then 0
             else if f_size f <=? np0 then 0 else np0).
  set (sp := if negb (f_hwrap f =? 0) && (whead f =? f_hwrap f) then 0 else whead f).
  assert (Hnp : (f_hwrap f <> 0 /\ e_pos x < f_hwrap f <= np0 /\ np = 0) \/
                (~ (f_hwrap f <> 0 /\ e_pos x < f_hwrap f <= np0) /\
                 ((f_size f <= np0 /\ np = 0) \/ (np0 < f_size f /\ np = np0)))).
  { subst np. destruct (negb (f_hwrap f =? 0) && (e_pos x <? f_hwrap f) && (f_hwrap f <=? np0)) eqn:E1; [lia|].
    destruct (f_size f <=? np0) eqn:E2; lia. }
  assert (Hsp : (f_hwrap f <> 0 /\ whead f = f_hwrap f /\ sp = 0) \/
                ((f_hwrap f = 0 \/ whead f <> f_hwrap f) /\ sp = whead f)).
  { subst sp. destruct (negb (f_hwrap f =? 0) && (whead f =? f_hwrap f)) eqn:E1; lia. }
  clearbody np sp.
  assert (DONE : match ys with [] => np = sp | y :: _ => np = e_pos y /\ np <> sp end ->
    (if np =? sp then None else Some np) = match ys with [] => None | y :: _ => Some (e_pos y) end).
  { destruct ys as [|y ys]; intros H.
    - subst. rewrite Z.eqb_refl. reflexivity.
    - destruct H as [-> H]. destruct (e_pos y =? sp) eqn:E; [lia|reflexivity]. }
  apply DONE. clear DONE.
  destruct HL as [[Hw Hc]|(es1 & es2 & E & [HB|HC])].
  - destruct ys as [|y ys].
    + apply chain_app_inv in Hc as (t' & _ & Hc). cbn [chain] in Hc. destruct Hc as (_ & Hc).
      subst np0. rewrite Hc in *. lia.
    + specialize (SEG _ _ _ _ Hc). unfold e_end, DESC in *. lia.
  - destruct HB as (Hn & Hb1 & Hb2 & Hb3 & (e1 & Hc1 & Ha & Hex) & Hc2 & He2).
    pose proof (align4_prop e1) as HA1.
    destruct (in_dec Z.eq_dec 0 []) as [[]|_].
    (* where is x? *)
    assert (POS : (exists l, es1 = xs ++ x :: l /\ ys = l ++ es2) \/
                  (exists l, es2 = l ++ x :: ys /\ xs = es1 ++ l)).
    { revert E. clear. revert xs. induction es1 as [|z es1 IH]; intros xs E.
      - right. exists xs. cbn in *. auto.
      - destruct xs as [|w xs]; cbn [app] in E; injection E as -> E.
        + left. exists es1. auto.
        + destruct (IH _ E) as [(l & -> & ->)|(l & -> & ->)]; [left|right]; exists l; auto. }
    destruct POS as [(l & -> & ->)|(l & -> & ->)].
    + destruct l as [|y l]; cbn [app].
      * pose proof (chain_nonempty_end _ _ _ Hc1 ltac:(destruct xs; discriminate)) as HT.
        apply chain_app_inv in Hc1 as (t' & Hc0 & Hc1). cbn [chain] in Hc1. destruct Hc1 as (_ & Hc1).
        subst e1. subst np0.
        destruct es2 as [|y es2].
        -- specialize (He2 eq_refl). cbn [chain] in Hc2. unfold e_end, DESC in *. lia.
        -- pose proof (chain_cons_bounds _ _ _ _ Hc2) as (Hy & _ & Hyh & _).
           pose proof (e_len_nonneg y). unfold e_end, DESC in *. cbn in Hy. lia.
      * specialize (SEG _ _ _ _ Hc1). unfold e_end, DESC in *. pose proof (e_len_nonneg y).
        pose proof (chain_nonempty_end _ _ _ Hc1 ltac:(destruct xs; discriminate)) as HT.
        unfold DESC in *.
        assert (es2 = [] -> f_head f = 0) by (intros ->; cbn [chain] in Hc2; lia).
        assert (es2 <> [] -> 16 <= f_head f).
        { intros Hne. pose proof (chain_nonempty_end _ _ _ Hc2 Hne). unfold DESC in *. lia. }
        apply chain_app_inv in Hc1 as (t' & Hc0 & Hc1). pose proof (chain_le _ _ _ Hc0).
        pose proof (chain_cons_bounds _ _ _ _ Hc1).
        destruct (list_eq_dec Z.eq_dec (map e_pos es2) []) as [Q|Q].
        -- apply map_eq_nil in Q. specialize (He2 Q). lia.
        -- assert (es2 <> []) by (intros ->; apply Q; reflexivity). lia.
    + destruct ys as [|y ys].
      * apply chain_app_inv in Hc2 as (t' & _ & Hc2). cbn [chain] in Hc2. destruct Hc2 as (_ & Hc2).
        subst np0. rewrite Hc2 in *. unfold e_end, DESC in *. lia.
      * apply chain_app_inv in Hc2 as (t' & _ & Hc2). cbn [chain] in Hc2.
        destruct Hc2 as (_ & Hy & Hc2). pose proof (chain_le _ _ _ Hc2). pose proof (e_len_nonneg y).
        unfold e_end, DESC in *. subst np0. lia.
  - destruct HC as (Hn & Hlt & (e1 & Hc1 & Ha & Hex) & Hc2 & He2).
    pose proof (align4_prop e1) as HA1.
    assert (POS : (exists l, es1 = xs ++ x :: l /\ ys = l ++ es2) \/
                  (exists l, es2 = l ++ x :: ys /\ xs = es1 ++ l)).
    { revert E. clear. revert xs. induction es1 as [|z es1 IH]; intros xs E.
      - right. exists xs. cbn in *. auto.
      - destruct xs as [|w xs]; cbn [app] in E; injection E as -> E.
        + left. exists es1. auto.
        + destruct (IH _ E) as [(l & -> & ->)|(l & -> & ->)]; [left|right]; exists l; auto. }
    destruct POS as [(l & -> & ->)|(l & -> & ->)].
    + pose proof (chain_nonempty_end _ _ _ Hc1 ltac:(destruct xs; discriminate)) as HT.
      pose proof (chain_nonempty_end _ _ _ Hc2 He2) as HT2.
      destruct l as [|y l]; cbn [app].
      * apply chain_app_inv in Hc1 as (t' & Hc0 & Hc1). cbn [chain] in Hc1. destruct Hc1 as (_ & Hc1).
        subst e1. subst np0. destruct es2 as [|y es2]; [contradiction|].
        pose proof (chain_cons_bounds _ _ _ _ Hc2) as (Hy & _ & Hyh & _).
        pose proof (e_len_nonneg y). unfold e_end, DESC in *. cbn in Hy. lia.
      * specialize (SEG _ _ _ _ Hc1). unfold e_end, DESC in *.
        apply chain_app_inv in Hc1 as (t' & Hc0 & Hc1). pose proof (chain_le _ _ _ Hc0).
        pose proof (chain_cons_bounds _ _ _ _ Hc1). lia.
    + destruct ys as [|y ys].
      * apply chain_app_inv in Hc2 as (t' & _ & Hc2). cbn [chain] in Hc2. destruct Hc2 as (_ & Hc2).
        subst np0. rewrite Hc2 in *. unfold e_end, DESC in *. lia.
      * apply chain_app_inv in Hc2 as (t' & _ & Hc2). cbn [chain] in Hc2.
        destruct Hc2 as (_ & Hy & Hc2). pose proof (chain_le _ _ _ Hc2). pose proof (e_len_nonneg y).
        unfold e_end, DESC in *. subst np0. lia.
Qed.

(** ** Walking *)
Lemma WF_count f es : WF f es -> DESC * zlen es <= f_size f.
Proof.
  assert (C : forall es t e, chain t es e -> t + DESC * zlen es <= e).
  { induction es0 as [|x es0 IH]; intros t e; cbn [chain]; intros H.
    - change (zlen (@nil ent)) with 0. lia.
    - destruct H as [H1 H2]. apply IH in H2. rewrite zlen_cons. unfold e_end in H2.
      pose proof (align4_prop t). pose proof (e_len_nonneg x). unfold DESC in *. lia. }
  intros ((Hm & Hs & Hd & Hh & Ht) & HL & _).
  destruct HL as [[Hw Hc]|(es1 & es2 & -> & [HB|HC])].
  - apply C in Hc. lia.
  - destruct HB as (Hn & Hb1 & Hb2 & Hb3 & (e1 & Hc1 & Ha & Hex) & Hc2 & He2).
    apply C in Hc1. apply C in Hc2. pose proof (align4_prop e1). rewrite zlen_app. unfold DESC in *. lia.
  - destruct HC as (Hn & Hlt & (e1 & Hc1 & Ha & Hex) & Hc2 & He2).
    apply C in Hc1. apply C in Hc2. rewrite zlen_app. unfold DESC in *. lia.
Qed.
Lemma walk_loop_spec f : forall ys xs guard, WF f (xs ++ ys) -> (length ys <= guard)%nat ->
  walk_loop guard f (match ys with [] => None | y :: _ => Some (e_pos y) end) = Some (map to_entry ys).
Proof.
  induction ys as [|y ys IH]; intros xs guard HWF HG.
  - destruct guard; reflexivity.
  - destruct guard as [|guard]; [cbn in HG; lia|]. cbn [walk_loop].
    rewrite (load_entry_spec _ _ _ HWF) by (apply in_or_app; right; left; reflexivity).
    cbn [obind]. rewrite (fifo_next_spec _ _ _ _ HWF). cbn [obind].
    rewrite (IH (xs ++ [y])); [reflexivity| |cbn in HG; lia].
    rewrite <- app_assoc. exact HWF.
Qed.
Lemma fifo_peek_spec f es : WF f es -> exists f', 
  fifo_peek f = (f', match es with [] => None | x :: _ => Some (e_pos x) end) /\ WF f' es /\
  f_size f' = f_size f /\ f_data f' = f_data f /\ f_last_pos f' = f_last_pos f /\ f_last_valid f' = f_last_valid f /\
  f_head f' = f_head f /\ (f_tail f' = f_tail f \/ exists x, In x es /\ f_tail f' = e_pos x).
Proof.
  intros HWF. destruct es as [|x es].
  - exists f. unfold fifo_peek. assert (E : fifo_is_empty f = true) by (apply (is_empty_spec _ _ HWF); reflexivity).
    rewrite E. auto 15.
  - destruct (align_tail_spec _ _ _ HWF) as (t & w & HT & -> & HWF' & HA).
    unfold fifo_peek.
    destruct (fifo_is_empty f) eqn:E; [apply (is_empty_spec _ _ HWF) in E; discriminate|].
    rewrite HT. destruct (fifo_is_empty (set_tail_wrap f (e_pos x) w)) eqn:E2;
      [apply (is_empty_spec _ _ HWF') in E2; discriminate|].
    eexists. split; [reflexivity|]. split; [assumption|].
    cbn [f_size f_data f_last_pos f_last_valid f_head f_tail set_tail_wrap].
    repeat (split; [reflexivity|]). right. exists x. split; [left|]; reflexivity.
Qed.
Lemma fifo_walk_spec f es : WF f es -> exists f', fifo_walk f = Some (f', map to_entry es) /\ WF f' es /\
  f_size f' = f_size f /\ f_data f' = f_data f /\ f_last_pos f' = f_last_pos f /\ f_last_valid f' = f_last_valid f /\
  f_head f' = f_head f /\ (f_tail f' = f_tail f \/ exists x, In x es /\ f_tail f' = e_pos x).
Proof.
  intros HWF. destruct (fifo_peek_spec _ _ HWF) as (f' & HP & HWF' & Hsz & Hrest).
  exists f'. unfold fifo_walk. rewrite HP.
  rewrite (walk_loop_spec f' es [] _ HWF').
  - cbn [obind]. auto.
  - pose proof (WF_count _ _ HWF') as HC. unfold fifo_desc_budget, zlen, DESC in *.
    destruct HWF' as ((_ & Hs & _) & _). unfold DESC in *.
    destruct (f_size f' <? 16) eqn:E; lia.
Qed.

(** ** In-place update *)
Lemma chain_split_disj t xs x ys e z : chain t (xs ++ x :: ys) e -> In z (xs ++ ys) ->
  e_end z <= e_pos x \/ e_end x <= e_pos z.
Proof.
  intros Hc Hin. apply chain_app_inv in Hc as (t' & Hc0 & Hc). apply in_app_or in Hin as [Hin|Hin].
  - left. pose proof (chain_in _ _ _ _ Hc0 Hin). pose proof (chain_cons_bounds _ _ _ _ Hc). lia.
  - right. cbn [chain] in Hc. destruct Hc as (_ & Hc). pose proof (chain_in _ _ _ _ Hc Hin). lia.
Qed.
Lemma split_mid {A} (xs es1 es2 : list A) x ys : xs ++ x :: ys = es1 ++ es2 ->
  (exists l, es1 = xs ++ x :: l /\ ys = l ++ es2) \/ (exists l, es2 = l ++ x :: ys /\ xs = es1 ++ l).
Proof.
  revert xs. induction es1 as [|z es1 IH]; intros xs E.
  - right. exists xs. cbn in *. auto.
  - destruct xs as [|w xs]; cbn [app] in E; injection E as -> E.
    + left. exists es1. auto.
    + destruct (IH _ E) as [(l & -> & ->)|(l & -> & ->)]; [left|right]; exists l; auto.
Qed.
Lemma WF_disj f xs x ys z : WF f (xs ++ x :: ys) -> In z (xs ++ ys) ->
  e_end z <= e_pos x \/ e_end x <= e_pos z.
Proof.
  intros ((Hm & Hs & Hd & Hh & Ht) & HL & _) Hin.
  destruct HL as [[Hw Hc]|(es1 & es2 & E & H)].
  - eapply chain_split_disj; eassumption.
  - assert (HH : f_head f <= f_tail f /\ (exists e1, chain (f_tail f) es1 e1) /\ chain 0 es2 (f_head f)).
    { destruct H as [(? & ? & ? & ? & (e1 & ? & _) & ? & _)|(? & ? & (e1 & ? & _) & ? & _)];
        (split; [lia|split; [eauto|assumption]]). }
    destruct HH as (Hle & (e1 & Hc1) & Hc2).
    apply split_mid in E as [(l & -> & ->)|(l & -> & ->)].
    + rewrite app_assoc in Hin. apply in_app_or in Hin as [Hin|Hin].
      * eapply chain_split_disj; eassumption.
      * left. pose proof (chain_in _ _ _ _ Hc2 Hin).
        assert (Hx : In x (xs ++ x :: l)) by (apply in_or_app; right; left; reflexivity).
        pose proof (chain_in _ _ _ _ Hc1 Hx). lia.
    + rewrite <- app_assoc in Hin. apply in_app_or in Hin as [Hin|Hin].
      * right. pose proof (chain_in _ _ _ _ Hc1 Hin).
        assert (Hx : In x (l ++ x :: ys)) by (apply in_or_app; right; left; reflexivity).
        pose proof (chain_in _ _ _ _ Hc2 Hx). lia.
      * eapply chain_split_disj; eassumption.
Qed.

Definition upd_ent (x : ent) (fl tm : Z) (data : list Z) : ent :=
  {| e_pos := e_pos x; e_flags := u32 fl; e_time := u32 tm; e_data := data |}.
Lemma chain_replace t xs x x' ys e : e_pos x' = e_pos x -> e_len x' = e_len x ->
  chain t (xs ++ x :: ys) e -> chain t (xs ++ x' :: ys) e.
Proof.
  intros Hp Hl. revert t. induction xs as [|y xs IH]; intros t; cbn [app chain]; intros [H1 H2].
  - split; [congruence|]. unfold e_end in *. rewrite Hp, Hl. assumption.
  - split; [assumption|]. apply IH. assumption.
Qed.
Lemma fifo_update_spec f xs x ys fl tm data : WF f (xs ++ x :: ys) -> zlen data = e_len x ->
  exists f', fifo_update f (e_pos x) fl tm data = Some f' /\ WF f' (xs ++ upd_ent x fl tm data :: ys) /\
    f_size f' = f_size f /\ f_last_pos f' = f_last_pos f /\ f_last_valid f' = f_last_valid f /\
    f_head f' = f_head f /\ f_tail f' = f_tail f.
Proof.
  intros HWF HL. assert (Hin : In x (xs ++ x :: ys)) by (apply in_or_app; right; left; reflexivity).
  unfold fifo_update. rewrite (load_desc_spec _ _ _ HWF Hin). cbn [obind d_pos d_len e_desc].
  pose proof (WF_entry_bounds _ _ _ HWF Hin) as (Hp & He & _).
  pose proof HWF as (HB & HLy & HM). pose proof HB as (Hm & Hs & Hd & Hh & Ht).
  set (d := {| d_pos := e_pos x; d_len := e_len x; d_flags := u32 fl; d_time := u32 tm |}).
  destruct (two_writes f (e_pos x) d data) as (m1 & m2 & E1 & E2); [lia|unfold e_end in He; lia|].
  rewrite E1. cbn [obind]. rewrite E2. cbn [obind].
  eexists. split; [reflexivity|]. cbn [f_size f_last_pos f_last_valid f_head f_tail]. split; [|auto].
  pose proof (mwrite_some _ _ _ _ E1) as (_ & _ & L1). pose proof (mwrite_some _ _ _ _ E2) as (_ & _ & L2).
  set (x' := upd_ent x fl tm data).
  assert (HxL : e_len x' = e_len x) by exact HL.
  split; [|split].
  - unfold base_ok; cbn. repeat split; try lia.
  - destruct HLy as [[Hw Hc]|(es1 & es2 & E & H)].
    + left. split; [exact Hw|]. cbn [f_hwrap f_tail f_head f_size]. apply chain_replace with (x := x); [reflexivity|exact HxL|exact Hc].
    + right. apply split_mid in E as [(l & -> & ->)|(l & -> & ->)].
      * exists (xs ++ x' :: l), es2. split; [rewrite <- app_assoc; reflexivity|].
        destruct H as [(? & ? & ? & ? & (e1 & Hc & ?) & ? & ?)|(? & ? & (e1 & Hc & ?) & ? & ?)]; [left|right];
          (unfold wrapB, wrapC; cbn [f_hwrap f_tail f_head f_size]; repeat split; try assumption; try lia;
           exists e1; split; [apply chain_replace with (x := x); [reflexivity|exact HxL|exact Hc]|assumption]).
      * exists es1, (l ++ x' :: ys). split; [rewrite <- app_assoc; reflexivity|].
        destruct H as [(? & ? & ? & ? & (e1 & Hc & ?) & Hc2 & ?)|(? & ? & (e1 & Hc & ?) & Hc2 & ?)]; [left|right];
          (unfold wrapB, wrapC; cbn [f_hwrap f_tail f_head f_size]; repeat split; try assumption; try lia;
           try (exists e1; split; [exact Hc|assumption]);
           try (apply chain_replace with (x := x); [reflexivity|exact HxL|exact Hc2]);
           try (intros Habs; destruct l; discriminate); try (destruct l; discriminate)).
  - cbn [f_data]. apply Forall_app in HM as [HM1 HM2]. inversion HM2 as [|? ? HMx HM3]; subst.
    assert (KEEP : forall z, In z (xs ++ ys) -> ent_in (f_data f) z -> ent_in m2 z).
    { intros z Hz Hez. pose proof (WF_disj _ _ _ _ _ HWF Hz).
      eapply ent_in_write; [exact E1|exact E2|exact Hez|]. unfold e_end in *. lia. }
    rewrite Forall_forall in HM1, HM3. apply Forall_app. split; [|constructor].
    + rewrite Forall_forall. intros z Hz. apply KEEP; [apply in_or_app; auto|auto].
    + split; [|split].
      * cbn [e_pos x' upd_ent]. eapply mread_mwrite_disj; [exact E2| |lia].
        apply mread_mwrite_same in E1. rewrite zlen_enc in E1. rewrite E1. f_equal.
        unfold d, e_desc. rewrite HxL. reflexivity.
      * cbn [e_pos x' upd_ent]. apply mread_mwrite_same in E2. exact E2.
      * cbn. unfold u32. lia.
    + rewrite Forall_forall. intros z Hz. apply KEEP; [apply in_or_app; auto|auto].
Qed.

(** ** Acceptance *)
Lemma WF_place_can f es len : WF f es -> 0 <= len -> DESC + len < 2^32 ->
  fifo_can_push_len f len = match place f (DESC + len) with Some _ => true | None => false end.
Proof.
  intros HWF Hl HN. rewrite fifo_can_push_place.
  assert (HU : u32 (DESC + len) = DESC + len) by (unfold u32; apply Z.mod_small; unfold DESC in *; lia).
  rewrite HU. destruct (f_size f <? DESC + len) eqn:E; [|reflexivity].
  destruct (place f (DESC + len)) as [[p hw]|] eqn:EP; [|reflexivity].
  assert (HB1 : DESC <= DESC + len < 2^32) by (unfold DESC in *; lia).
  pose proof (place_spec f _ p hw (proj1 HWF) (WF_hwrap _ _ HWF) HB1 EP). lia.
Qed.

(** [place] succeeds exactly in these numeric situations. *)
Lemma place_complete f needed : base_ok f -> 0 <= f_hwrap f <= f_size f -> DESC <= needed < 2^32 ->
  (f_hwrap f = 0 /\ f_tail f <= whead f /\ whead f + needed <= f_size f) \/
  (f_hwrap f = 0 /\ f_tail f <= whead f /\ needed <= f_tail f) \/
  (f_hwrap f = 0 /\ whead f < f_tail f /\ whead f + needed <= f_tail f) \/
  (f_hwrap f <> 0 /\ whead f < f_tail f /\ whead f + needed <= f_tail f) ->
  place f needed <> None.
Proof.
  intros (Hm & Hs & Hd & Hh & Ht) Hw Hn Hc. unfold place. fold (whead f).
  assert (HW : 0 <= whead f < f_size f).
  { unfold whead. rewrite align_head_spec by lia. pose proof (align4_prop (f_head f)).
    destruct (f_size f <=? align4 (f_head f)) eqn:E; lia. }
  unfold push_space, DESC in *.
  set (w := whead f) in *. set (hw := f_hwrap f) in *. set (t := f_tail f) in *. set (s := f_size f) in *.
  assert (U : forall p, 0 <= p < s -> needed <= s -> u32 (p + needed) = p + needed).
  { intros. unfold u32. apply Z.mod_small. lia. }
  destruct ((w =? t) && (hw =? 0)) eqn:E1.
  - destruct (s <? needed) eqn:E2; [lia|].
    destruct (negb (hw =? 0) && (w =? hw)) eqn:E3; [lia|].
    destruct ((hw =? 0) && (t <=? w)) eqn:E4; [|lia].
    destruct (s - w <? needed) eqn:E5.
    + destruct (t <? needed) eqn:E6; [lia|]. destruct (negb (w =? 0)) eqn:E7; [|lia].
      rewrite U by lia. destruct (t <? 0 + needed) eqn:E8; [lia|discriminate].
    + destruct (negb (hw =? 0)) eqn:E7; [lia|]. rewrite U by lia.
      destruct (s <? w + needed) eqn:E8; [lia|discriminate].
  - destruct (w =? t) eqn:E2; [lia|].
    destruct (negb (hw =? 0)) eqn:E3.
    + destruct (w <? t) eqn:E4; [|lia]. destruct (t - w <? needed) eqn:E5; [lia|].
      destruct (hw =? 0) eqn:E6; [lia|]. cbn [andb]. rewrite E6. cbn [negb].
      destruct (w =? hw) eqn:E7; rewrite U by lia;
      match goal with |- context [?a <? ?b] => destruct (a <? b) eqn:E8; [lia|discriminate] end.
    + destruct (t <=? w) eqn:E4.
      * destruct (s - (w - t) <? needed) eqn:E5; [lia|].
        cbn [andb]. destruct (hw =? 0) eqn:E6; [|lia]. cbn [andb]. rewrite E4.
        destruct (s - w <? needed) eqn:E7.
        -- destruct (t <? needed) eqn:E8; [lia|]. destruct (negb (w =? 0)) eqn:E9; [|lia].
           rewrite U by lia. destruct (t <? 0 + needed) eqn:E10; [lia|discriminate].
        -- rewrite E6. cbn [negb]. rewrite U by lia. destruct (s <? w + needed) eqn:E10; [lia|discriminate].
      * destruct (t - w <? needed) eqn:E5; [lia|]. cbn [andb].
        destruct (hw =? 0) eqn:E6; [|lia]. cbn [andb]. rewrite E4, E6. cbn [negb].
        rewrite U by lia. destruct (s <? w + needed) eqn:E10; [lia|discriminate].
Qed.

Lemma can_push_mono f es len len' : WF f es -> 0 <= len' <= len -> DESC + len < 2^32 ->
  fifo_can_push_len f len = true -> fifo_can_push_len f len' = true.
Proof.
  intros HWF Hl HN. rewrite !(WF_place_can f es) by (first [assumption|lia]).
  destruct (place f (DESC + len)) as [[p hw]|] eqn:EP; [|discriminate]. intros _.
  pose proof (WF_hwrap _ _ HWF) as HWr. pose proof (proj1 HWF) as HB.
  assert (HB1 : DESC <= DESC + len < 2^32) by (unfold DESC in *; lia).
  pose proof (place_spec f _ p hw HB HWr HB1 EP) as (Hfit & Hcase).
  assert (HB2 : DESC <= DESC + len' < 2^32) by (unfold DESC in *; lia).
  destruct (place f (DESC + len')) eqn:EP'; [reflexivity|exfalso].
  apply (place_complete f _ HB HWr HB2); [|exact EP'].
  pose proof HB as (Hm & Hs & Hd & Hh & Ht).
  assert (HW : 0 <= whead f < f_size f).
  { unfold whead. rewrite align_head_spec by lia. pose proof (align4_prop (f_head f)).
    destruct (f_size f <=? align4 (f_head f)) eqn:E; lia. }
  destruct Hcase as [Hc|[Hc|[Hc|Hc]]].
  - left. lia.
  - right. left. lia.
  - right. right. left. lia.
  - right. right. right. destruct Hc as (C1 & C2 & C3 & C4 & C5).
    destruct C4 as [[-> C4]|[-> C4]]; [|lia].
    (* head aligned onto the marker: then tail > marker, impossible *)
    exfalso. destruct HWF as (_ & HL & _).
    destruct HL as [[Hw Hc]|(es1 & es2 & E & [HBB|HC])]; [lia| |destruct HC; lia].
    destruct HBB as (_ & _ & Hb2 & _). lia.
Qed.

Lemma can_push_empty f len : WF f [] -> 0 <= len -> 2 * (DESC + len) + 4 <= f_size f -> fifo_can_push_len f len = true.
Proof.
  intros HWF Hl HN. pose proof (proj1 HWF) as HB. pose proof HB as (Hm & Hs & Hd & Hh & Ht).
  rewrite (WF_place_can f []) by (first [assumption|unfold DESC in *; lia]).
  destruct (place f (DESC + len)) as [[p hw]|] eqn:EP; [reflexivity|exfalso].
  pose proof (WF_hwrap _ _ HWF) as HWr.
  assert (E : fifo_is_empty f = true) by (apply (is_empty_spec _ _ HWF); reflexivity).
  unfold fifo_is_empty in E.
  assert (HB2 : DESC <= DESC + len < 2^32) by (unfold DESC in *; lia).
  apply (place_complete f _ HB HWr HB2); [|exact EP].
  pose proof (WF_whead _ _ HWF) as HW. pose proof (align4_prop (f_head f)) as HA.
  unfold DESC in *. lia.
Qed.

Lemma max_push_loop_spec f es base : WF f es -> forall fuel lo hi best,
  0 <= base -> 1 <= lo -> lo <= hi + 1 -> 0 <= best < lo -> DESC + base + hi < 2^32 ->
  hi - lo + 1 < 2 ^ (Z.of_nat fuel - 1) ->
  (1 <= fuel)%nat ->
  (best = 0 \/ fifo_can_push_len f (base + best) = true) ->
  (best = 0 -> forall l, 1 <= l < lo -> fifo_can_push_len f (base + l) = false) ->
  (best <> 0 -> best = lo - 1) ->
  forall cap, hi <= cap -> DESC + base + cap < 2^32 ->
  (forall l, hi < l <= cap -> fifo_can_push_len f (base + l) = false) ->
  let r := max_push_loop fuel f base lo hi best in
  0 <= r <= cap /\ (r = 0 \/ fifo_can_push_len f (base + r) = true) /\
  (forall l, r < l <= cap -> fifo_can_push_len f (base + l) = false).
Proof.
  intros HWF. induction fuel as [|fuel IH]; intros lo hi best Hb Hlo Hlh Hbest HN Hpow HF H1 H2 H3 cap Hcap HNc Hhi; [lia|].
  cbn [max_push_loop]. cbv zeta.
  destruct (lo <=? hi) eqn:E.
  - set (mid := lo + (hi - lo) / 2).
    assert (Hmid : lo <= mid <= hi) by (subst mid; lia).
    assert (HU : u32 (base + mid) = base + mid) by (unfold u32; apply Z.mod_small; unfold DESC in *; lia).
    rewrite HU.
    assert (HF2 : (1 <= fuel)%nat).
    { destruct fuel; [|lia]. exfalso. cbn in Hpow. lia. }
    assert (Hpow2 : 2 ^ (Z.of_nat (S fuel) - 1) = 2 * 2 ^ (Z.of_nat fuel - 1)).
    { rewrite <- Z.pow_succ_r by lia. f_equal. lia. }
    rewrite Hpow2 in Hpow.
    destruct (fifo_can_push_len f (base + mid)) eqn:EC.
    + apply IH; try lia; try assumption.
      right; assumption.
    + apply IH; try lia; try assumption.
      intros l Hl. destruct (Z.le_gt_cases l hi) as [Hle|Hgt]; [|apply Hhi; lia].
        destruct (fifo_can_push_len f (base + l)) eqn:EL; [|reflexivity].
        rewrite (can_push_mono f es (base + l) (base + mid)) in EC; [discriminate|assumption|lia| |assumption].
        unfold DESC in *; lia.
  - assert (hi = lo - 1) by lia.
    split; [lia|]. split; [assumption|].
    intros l Hl. destruct (Z.eq_dec best 0) as [Hz|Hz].
    + destruct (Z.lt_ge_cases l lo); [apply H2; lia|apply Hhi; lia].
    + specialize (H3 Hz). apply Hhi. lia.
Qed.
Lemma max_push_payload_spec f es base cap : WF f es -> 0 <= base -> 0 <= cap -> DESC + base + cap < 2^32 ->
  let r := fifo_max_push_payload f base cap in
  0 <= r <= cap /\ (r = 0 \/ fifo_can_push_len f (base + r) = true) /\
  (forall l, r < l <= cap -> fifo_can_push_len f (base + l) = false).
Proof.
  intros HWF Hb Hc HN. unfold fifo_max_push_payload. destruct (cap =? 0) eqn:E.
  - cbv zeta. split; [lia|]. split; [left; reflexivity|]. intros; lia.
  - apply (max_push_loop_spec f es base HWF); try lia.
    + unfold DESC in *. change (2 ^ (Z.of_nat 34 - 1)) with 8589934592. lia.
Qed.
