(** Proofs about fifo_push. *)
From Verif Require Import Base Fifo FifoProofs.

(** ** Push *)
Definition whead (f : fifo) : Z := fifo_align_head_pos (f_head f) (f_size f).
Definition hz_exact (f : fifo) (len : Z) : bool :=
  (f_hwrap f =? 0) && (whead f + DESC + len =? f_tail f).
Definition hz_overwrite (f : fifo) : bool :=
  (f_hwrap f =? 0) &&
  (((f_head f <? f_tail f) && ((f_tail f <=? whead f) || (whead f <? f_head f)))
   || ((f_tail f =? 0) && (whead f =? 0) && (0 <? f_head f))).
Definition push_abs (f : fifo) (es : list ent) (x : ent) : list ent :=
  if hz_exact f (e_len x) then [] else if hz_overwrite f then [x] else es ++ [x].

Lemma ent_in_write m m1 m2 p d data x :
  mwrite m p (enc_desc d) = Some m1 -> mwrite m1 (p + DESC) data = Some m2 ->
  ent_in m x -> e_end x <= p \/ p + DESC + zlen data <= e_pos x -> ent_in m2 x.
Proof.
  intros H1 H2 (Hd & Hp & Hr) Hdis. pose proof (e_len_nonneg x). pose proof (zlen_nonneg data).
  unfold e_end, DESC in *.
  split; [|split; [|exact Hr]].
  - eapply mread_mwrite_disj; [exact H2| |unfold DESC; lia].
    eapply mread_mwrite_disj; [exact H1|exact Hd|]. rewrite zlen_enc; unfold DESC; lia.
  - eapply mread_mwrite_disj; [exact H2| |unfold DESC; lia].
    eapply mread_mwrite_disj; [exact H1|exact Hp|]. rewrite zlen_enc; unfold DESC; lia.
Qed.
Lemma ent_in_new m m1 m2 p data :
  mwrite m p (enc_desc {| d_pos := p; d_len := zlen data; d_flags := 0; d_time := 0 |}) = Some m1 ->
  mwrite m1 (p + DESC) data = Some m2 ->
  ent_in m2 {| e_pos := p; e_flags := 0; e_time := 0; e_data := data |}.
Proof.
  intros H1 H2. split; [|split; [|cbn; lia]].
  - cbn [e_pos]. eapply mread_mwrite_disj; [exact H2| |lia].
    apply mread_mwrite_same in H1. rewrite zlen_enc in H1. exact H1.
  - cbn [e_pos e_len e_data]. apply mread_mwrite_same in H2. exact H2.
Qed.

Definition new_ent (p : Z) (data : list Z) : ent :=
  {| e_pos := p; e_flags := 0; e_time := 0; e_data := data |}.

Lemma push_write f es p data m1 m2 hd hw lv lp keep :
  WF f es ->
  mwrite (f_data f) p (enc_desc {| d_pos := p; d_len := zlen data; d_flags := 0; d_time := 0 |}) = Some m1 ->
  mwrite m1 (p + DESC) data = Some m2 ->
  0 <= hd < f_size f ->
  incl keep es ->
  (forall x, In x keep -> e_end x <= p \/ p + DESC + zlen data <= e_pos x) ->
  forall full, (full = keep ++ [new_ent p data] \/ full = []) ->
  (layout {| f_head := hd; f_tail := f_tail f; f_size := f_size f; f_hwrap := hw;
             f_last_pos := lp; f_last_valid := lv; f_data := m2 |} full) ->
  WF {| f_head := hd; f_tail := f_tail f; f_size := f_size f; f_hwrap := hw;
        f_last_pos := lp; f_last_valid := lv; f_data := m2 |} full.
Proof.
  intros (HB & HL & HM) H1 H2 Hhd Hincl Hdis full Hfull HLy.
  destruct HB as (Hm & Hs & Hd & Hh & Ht).
  split; [|split; [assumption|]].
  - unfold base_ok; cbn. apply mwrite_some in H1 as (_ & _ & E1). apply mwrite_some in H2 as (_ & _ & E2).
    repeat split; try lia.
  - cbn [f_data]. destruct Hfull as [-> | ->]; [|constructor].
    apply Forall_app. split; [|constructor; [|constructor]; eapply ent_in_new; eassumption].
    rewrite Forall_forall. intros x Hin. rewrite Forall_forall in HM.
    eapply ent_in_write; [exact H1|exact H2|apply HM; apply Hincl; assumption|apply Hdis; assumption].
Qed.

Lemma two_writes f p d data : 0 <= p -> p + DESC + zlen data <= zlen (f_data f) ->
  exists m1 m2, mwrite (f_data f) p (enc_desc d) = Some m1 /\ mwrite m1 (p + DESC) data = Some m2.
Proof.
  intros Hp He. pose proof (zlen_nonneg data).
  destruct (mwrite_in (f_data f) p (enc_desc d)) as [m1 H1]; [lia|rewrite zlen_enc; unfold DESC in *; lia|].
  pose proof (mwrite_some _ _ _ _ H1) as (_ & _ & E).
  destruct (mwrite_in m1 (p + DESC) data) as [m2 H2]; [unfold DESC in *; lia|unfold DESC in *; lia|].
  eauto.
Qed.

(** Where a push places the frame (position), and whether it refuses; this is
    a numeric characterisation used by several proofs. *)
Definition place (f : fifo) (needed : Z) : option (Z * Z) :=
  let size := f_size f in
  let tail := f_tail f in
  let h_wrap := f_hwrap f in
  let head := fifo_align_head_pos (f_head f) size in
  if push_space head tail h_wrap size <? needed then None else
  let head := if negb (h_wrap =? 0) && (head =? h_wrap) then 0 else head in
  match (if (h_wrap =? 0) && (tail <=? head) then
      if size - head <? needed then
        if tail <? needed then None else Some (0, head)
      else Some (head, h_wrap)
    else Some (head, h_wrap)) with
  | None => None
  | Some (head, h_wrap) =>
    if (if negb (h_wrap =? 0) then tail <? u32 (head + needed) else size <? u32 (head + needed))
    then None else Some (head, h_wrap)
  end.

Lemma fifo_push_place f data :
  fifo_push f data =
  match place f (u32 (DESC + zlen data)) with
  | None => Some (f, -1)
  | Some (p, hw) =>
    do m1 <- mwrite (f_data f) p (enc_desc {| d_pos := p; d_len := zlen data; d_flags := 0; d_time := 0 |});
    do m2 <- mwrite m1 (p + DESC) data;
    let '(hd, hw) := if p + DESC + zlen data =? f_size f then (0, if hw =? 0 then f_size f else hw)
                     else (p + DESC + zlen data, hw) in
    Some ({| f_head := hd; f_tail := f_tail f; f_size := f_size f; f_hwrap := hw;
             f_last_pos := p; f_last_valid := 1; f_data := m2 |}, 0)
  end.
Proof.
  unfold fifo_push, place.
  destruct (push_space _ _ _ _ <? _); [reflexivity|].
  destruct (if (f_hwrap f =? 0) && _ then _ else _) as [[p hw]|]; [|reflexivity].
  destruct (if negb (hw =? 0) then _ else _); reflexivity.
Qed.
Lemma fifo_can_push_place f len :
  fifo_can_push_len f len =
  if f_size f <? u32 (DESC + len) then false else
  match place f (u32 (DESC + len)) with None => false | Some _ => true end.
Proof.
  unfold fifo_can_push_len, place.
  destruct (f_size f <? _); [reflexivity|].
  destruct (push_space _ _ _ _ <? _); [reflexivity|].
  destruct (if (f_hwrap f =? 0) && _ then _ else _) as [[p hw]|]; [|reflexivity].
  destruct (negb (hw =? 0)); destruct (_ <? _); reflexivity.
Qed.

Lemma place_spec f needed p hw : base_ok f -> 0 <= f_hwrap f <= f_size f -> DESC <= needed < 2^32 ->
  place f needed = Some (p, hw) ->
  needed <= f_size f /\
  ((f_hwrap f = 0 /\ f_tail f <= whead f /\ p = whead f /\ hw = 0 /\ p + needed <= f_size f) \/
   (f_hwrap f = 0 /\ f_tail f <= whead f /\ f_size f - whead f < needed /\ needed <= f_tail f /\ p = 0 /\ hw = whead f) \/
   (f_hwrap f = 0 /\ whead f < f_tail f /\ p = whead f /\ hw = 0 /\ p + needed <= f_tail f) \/
   (f_hwrap f <> 0 /\ whead f < f_tail f /\ hw = f_hwrap f /\
     ((p = 0 /\ whead f = f_hwrap f) \/ (p = whead f /\ whead f <> f_hwrap f)) /\ p + needed <= f_tail f)).
Proof.
  intros (Hm & Hs & Hd & Hh & Ht) Hw Hn. unfold place. fold (whead f).
  assert (HW : 0 <= whead f < f_size f).
  { unfold whead. rewrite align_head_spec by lia. pose proof (align4_prop (f_head f)).
    destruct (f_size f <=? align4 (f_head f)) eqn:E; lia. }
  unfold push_space, DESC in *.
  destruct ((whead f =? f_tail f) && (f_hwrap f =? 0)) eqn:E1.
  - destruct (f_size f <? needed) eqn:E2; [discriminate|].
    destruct (negb (f_hwrap f =? 0) && (whead f =? f_hwrap f)) eqn:E3; [lia|].
    destruct ((f_hwrap f =? 0) && (f_tail f <=? whead f)) eqn:E4; [|lia].
    destruct (f_size f - whead f <? needed) eqn:E5.
    + destruct (f_tail f <? needed) eqn:E6; [discriminate|].
      destruct (negb (whead f =? 0)) eqn:E7; [|lia].
      unfold u32. rewrite Z.mod_small by lia.
      destruct (f_tail f <? 0 + needed) eqn:E8; [discriminate|]. intros H; injection H as <- <-.
      split; [lia|]. right; left. lia.
    + assert (HH : f_hwrap f = 0) by lia. rewrite HH. cbn [Z.eqb negb].
      unfold u32. rewrite Z.mod_small by lia.
      destruct (f_size f <? whead f + needed) eqn:E7; [discriminate|]. intros H; injection H as <- <-.
      split; [lia|]. left. lia.
  - destruct (whead f =? f_tail f) eqn:E1'.
    { destruct (0 <? needed) eqn:E2; [discriminate|lia]. }
    destruct (negb (f_hwrap f =? 0)) eqn:E2.
    + destruct (whead f <? f_tail f) eqn:E3.
      2:{ destruct (0 <? needed) eqn:E4; [discriminate|lia]. }
      destruct (f_tail f - whead f <? needed) eqn:E4; [discriminate|].
      destruct (f_hwrap f =? 0) eqn:E5; [lia|].
      cbn [andb]. rewrite E5. cbn [negb].
      destruct (whead f =? f_hwrap f) eqn:E6.
      * unfold u32. rewrite Z.mod_small by lia.
        destruct (f_tail f <? 0 + needed) eqn:E7; [discriminate|]. intros H; injection H as <- <-.
        split; [lia|]. right; right; right. lia.
      * unfold u32. rewrite Z.mod_small by lia.
        destruct (f_tail f <? whead f + needed) eqn:E7; [discriminate|]. intros H; injection H as <- <-.
        split; [lia|]. right; right; right. lia.
    + assert (HH : f_hwrap f = 0) by lia.
      destruct (f_tail f <=? whead f) eqn:E3.
      * destruct (f_size f - (whead f - f_tail f) <? needed) eqn:E4; [discriminate|].
        destruct (negb (f_hwrap f =? 0) && (whead f =? f_hwrap f)) eqn:E5; [lia|].
        rewrite HH. cbn [Z.eqb andb]. rewrite E3.
        destruct (f_size f - whead f <? needed) eqn:E6.
        -- destruct (f_tail f <? needed) eqn:E7; [discriminate|].
           destruct (negb (whead f =? 0)) eqn:E8; [|lia].
           unfold u32. rewrite Z.mod_small by lia.
           destruct (f_tail f <? 0 + needed) eqn:E9; [discriminate|]. intros H; injection H as <- <-.
           split; [lia|]. right; left. lia.
        -- cbn [Z.eqb negb]. unfold u32. rewrite Z.mod_small by lia.
           destruct (f_size f <? whead f + needed) eqn:E7; [discriminate|]. intros H; injection H as <- <-.
           split; [lia|]. left. lia.
      * destruct (f_tail f - whead f <? needed) eqn:E4; [discriminate|].
        destruct (negb (f_hwrap f =? 0) && (whead f =? f_hwrap f)) eqn:E5; [lia|].
        rewrite HH. cbn [Z.eqb andb]. rewrite E3. cbn [negb].
        unfold u32. rewrite Z.mod_small by lia.
        destruct (f_size f <? whead f + needed) eqn:E7; [discriminate|]. intros H; injection H as <- <-.
        split; [lia|]. right; right; left. lia.
Qed.

Lemma WF_hwrap f es : WF f es -> 0 <= f_hwrap f <= f_size f.
Proof.
  intros ((Hm & Hs & Hd & Hh & Ht) & HL & HM). unfold DESC in *.
  destruct HL as [[Hw Hc]|(es1 & es2 & -> & [HB|HC])].
  - lia.
  - destruct HB as (Hn & Hb1 & _). lia.
  - destruct HC as (Hn & _). lia.
Qed.

Lemma fifo_push_spec f es data : WF f es -> DESC + zlen data < 2^32 ->
  exists f' r, fifo_push f data = Some (f', r) /\
    ((r = -1 /\ f' = f) \/
     (r = 0 /\ exists p, WF f' (push_abs f es (new_ent p data)) /\
        f_size f' = f_size f /\ f_last_pos f' = p /\ f_last_valid f' = 1 /\
        f_tail f' = f_tail f /\ p mod 4 = 0 /\
        (f_head f' = p + DESC + zlen data \/ f_head f' = 0))).
Proof.
  intros HWF HN. rewrite fifo_push_place.
  pose proof (WF_hwrap _ _ HWF) as HWr. pose proof (zlen_nonneg data) as HZ.
  pose proof HWF as (HB & HL & HM). pose proof HB as (Hm & Hs & Hd & Hh & Ht).
  assert (HU : u32 (DESC + zlen data) = DESC + zlen data).
  { unfold u32. apply Z.mod_small. unfold DESC in *. lia. }
  rewrite HU.
  destruct (place f (DESC + zlen data)) as [[p hw]|] eqn:EP.
  2:{ exists f, (-1). split; [reflexivity|]. left; auto. }
  assert (HB1 : DESC <= DESC + zlen data < 2^32) by lia.
  pose proof (place_spec f _ p hw HB HWr HB1 EP) as (Hfit & Hcase).
  assert (HWH : (f_size f <= align4 (f_head f) /\ whead f = 0) \/
                (align4 (f_head f) < f_size f /\ whead f = align4 (f_head f))).
  { unfold whead. rewrite align_head_spec by lia.
    destruct (f_size f <=? align4 (f_head f)) eqn:EA; lia. }
  pose proof (align4_prop (f_head f)) as HAH.
  destruct (two_writes f p {| d_pos := p; d_len := zlen data; d_flags := 0; d_time := 0 |} data)
    as (m1 & m2 & E1 & E2).
  { lia. }
  { unfold DESC in *; lia. }
  rewrite E1. cbn [obind]. rewrite E2. cbn [obind].
  destruct (if p + DESC + zlen data =? f_size f then _ else _) as [hd hw'] eqn:EH.
  eexists _, 0. split; [reflexivity|]. right. split; [reflexivity|].
  exists p. split.
  2:{ cbn [f_size f_last_pos f_last_valid f_tail f_head]. repeat (split; [reflexivity|]). split; [lia|].
      destruct (p + DESC + zlen data =? f_size f); apply pair_equal_spec in EH as [<- <-]; auto. }
  set (x := new_ent p data).
  assert (Hxl : e_len x = zlen data) by reflexivity.
  assert (Hxe : e_end x = p + DESC + zlen data) by reflexivity.
  assert (Hhd : 0 <= hd < f_size f).
  { destruct (p + DESC + zlen data =? f_size f) eqn:E; apply pair_equal_spec in EH as [<- <-]; unfold DESC in *; lia. }
  unfold push_abs. fold x. rewrite Hxl.
  destruct HL as [[Hw Hc]|(es1 & es2 & -> & [HW|HC])].
  - (* linear *)
    pose proof (chain_le _ _ _ Hc) as HLE.
    assert (HNE : es <> [] -> f_tail f + DESC <= f_head f) by (intros; eapply chain_nonempty_end; eassumption).
    assert (HIN : forall y, In y es -> f_tail f <= e_pos y /\ e_end y <= f_head f)
      by (intros y Hy; pose proof (chain_in _ _ _ _ Hc Hy); lia).
    destruct (hz_exact f (zlen data)) eqn:HX.
    { (* head meets tail: everything is lost *)
      unfold hz_exact in HX. unfold DESC in *.
      destruct (f_size f <=? align4 (f_head f)) eqn:EA; [|lia].
      destruct (p + 16 + zlen data =? f_size f) eqn:EB; [lia|]. apply pair_equal_spec in EH as [<- <-].
      eapply push_write with (keep := []); try eassumption; [intros y []|intros y []|right; reflexivity|].
      left. split; cbn [f_hwrap f_tail f_head]; [lia|]. cbn [chain]. lia. }
    destruct (hz_overwrite f) eqn:HO.
    { unfold hz_overwrite in HO. unfold DESC in *.
      destruct (f_size f <=? align4 (f_head f)) eqn:EA; [|lia].
      eapply push_write with (keep := []); try eassumption; [intros y []|intros y []|left; reflexivity|].
      assert (p = 0 /\ hw = 0) as [-> ->] by lia.
      destruct (0 + 16 + zlen data =? f_size f) eqn:EB; apply pair_equal_spec in EH as [<- <-].
      - right. exists [x], []. split; [reflexivity|]. left. cbn [Z.eqb]. unfold wrapB; cbn [f_hwrap f_tail f_head f_size].
        repeat split; try lia.
        exists (f_size f). split; [|split; [apply align4_id; lia|reflexivity]].
        cbn [chain]. split; [cbn [e_pos x new_ent]; replace (f_tail f) with 0 by lia; reflexivity|].
        rewrite Hxe. unfold DESC. lia.
      - left. split; cbn [f_hwrap f_tail f_head]; [reflexivity|].
        cbn [chain]. split; [cbn [e_pos x new_ent]; replace (f_tail f) with 0 by lia; reflexivity|].
        rewrite Hxe. unfold DESC. lia. }
    unfold hz_exact in HX. unfold hz_overwrite in HO.
    eapply push_write with (keep := es); try eassumption;
      [intros y Hy; assumption| |left; reflexivity|].
    { intros y Hy. specialize (HIN y Hy). pose proof (e_len_nonneg y).
      destruct (f_size f <=? align4 (f_head f)) eqn:EA; unfold e_end, DESC in *; lia. }
    destruct (f_size f <=? align4 (f_head f)) eqn:EA.
    + (* ragged: goes to position 0 without a marker *)
      unfold DESC in *.
      destruct (Z.eq_dec (f_tail f) 0) as [HT0|HT0]; [lia|].
      assert (p = 0 /\ hw = 0) as [-> ->] by lia.
      destruct (0 + 16 + zlen data =? f_size f) eqn:EB; [lia|]. apply pair_equal_spec in EH as [<- <-].
      right. exists es, [x]. split; [reflexivity|]. right.
      unfold wrapC; cbn [f_hwrap f_tail f_head f_size].
      repeat split; try lia; try discriminate.
      exists (f_head f). split; [assumption|]. lia.
    + destruct Hcase as [(C1 & C2 & -> & -> & C5)|[(C1 & C2 & C3 & C4 & -> & ->)|[(C1 & C2 & _)|(C1 & _)]]]; try lia.
      * (* at the end of the linear area *)
        assert (HCN : chain (f_tail f) (es ++ [x]) (e_end x)).
        { apply chain_snoc with (e := f_head f); [assumption|]. cbn. lia. }
        destruct (whead f + DESC + zlen data =? f_size f) eqn:EB; apply pair_equal_spec in EH as [<- <-].
        -- right. exists (es ++ [x]), []. split; [rewrite app_nil_r; reflexivity|]. left.
           cbn [Z.eqb]. unfold wrapB; cbn [f_hwrap f_tail f_head f_size]. unfold DESC in *.
           repeat split; try lia.
           exists (f_size f). split; [|split; [apply align4_id; lia|reflexivity]].
           replace (f_size f) with (e_end x) by (rewrite Hxe; unfold DESC; lia). exact HCN.
        -- left. split; [reflexivity|]. cbn [f_hwrap f_tail f_head]. exact HCN.
      * (* wraps and sets the marker *)
        unfold DESC in *.
        destruct (0 + 16 + zlen data =? f_size f) eqn:EB; [lia|]. apply pair_equal_spec in EH as [<- <-].
        right. exists es, [x]. split; [reflexivity|]. left.
        unfold wrapB; cbn [f_hwrap f_tail f_head f_size].
        repeat split; try lia; try discriminate.
        exists (f_head f). split; [assumption|]. split; lia.
  - (* wrapped with marker *)
    destruct HW as (Hn & Hb1 & Hb2 & Hb3 & (e1 & Hc1 & Ha & Hexa) & Hc2 & He).
    assert (HX : hz_exact f (zlen data) = false) by (unfold hz_exact; lia).
    assert (HO : hz_overwrite f = false) by (unfold hz_overwrite; lia).
    rewrite HX, HO.
    destruct Hcase as [(C1 & _)|[(C1 & _)|[(C1 & _)|(C1 & C2 & -> & CP & C5)]]]; try lia.
    pose proof (chain_le _ _ _ Hc1) as HL1. pose proof (align4_prop e1) as HA1.
    assert (HwF : f_hwrap f <> whead f) by (unfold DESC in *; lia).
    assert (HEA : (f_size f <=? align4 (f_head f)) = false).
    { destruct (f_size f <=? align4 (f_head f)) eqn:EA; [|reflexivity]. exfalso.
      (* head is within 4 of the end, so tail is too, hence marker cannot be there *)
      destruct es1 as [|y es1].
      - cbn [chain] in Hc1. subst e1.
        destruct (Z.eq_dec (f_hwrap f) (f_size f)) as [Q|Q]; [rewrite Q in *; specialize (Hexa eq_refl); lia|].
        lia.
      - apply chain_cons_bounds in Hc1. unfold DESC in *. lia. }
    assert (p = whead f) as -> by lia.
    unfold DESC in *.
    destruct (whead f + 16 + zlen data =? f_size f) eqn:EB; [lia|]. apply pair_equal_spec in EH as [<- <-].
    eapply push_write with (keep := es1 ++ es2); try eassumption;
      [intros y Hy; assumption| |left; reflexivity|].
    { intros y Hy. pose proof (e_len_nonneg y). apply in_app_or in Hy as [Hy|Hy].
      - pose proof (chain_in _ _ _ _ Hc1 Hy). unfold e_end, DESC in *; lia.
      - pose proof (chain_in _ _ _ _ Hc2 Hy). unfold e_end, DESC in *; lia. }
    right. exists es1, (es2 ++ [x]). split; [rewrite app_assoc; reflexivity|]. left.
    unfold wrapB; cbn [f_hwrap f_tail f_head f_size].
    repeat split; try lia; try assumption.
    * exists e1. auto.
    * replace (whead f + 16 + zlen data) with (e_end x) by (rewrite Hxe; unfold DESC; lia).
      apply chain_snoc with (e := f_head f); [assumption|]. cbn [e_pos x new_ent]. lia.
    * intros Habs. destruct es2; discriminate.
  - (* wrapped without marker *)
    destruct HC as (Hn & Hlt & (e1 & Hc1 & Ha & Hexa) & Hc2 & He).
    pose proof (chain_le _ _ _ Hc1) as HL1.
    pose proof (chain_nonempty_end _ _ _ Hc2 He) as HL2.
    pose proof (align4_prop (f_tail f)) as HAT.
    destruct (hz_exact f (zlen data)) eqn:HX.
    { unfold hz_exact in HX. unfold DESC in *.
      destruct (p + 16 + zlen data =? f_size f) eqn:EB; [lia|]. apply pair_equal_spec in EH as [<- <-].
      eapply push_write with (keep := []); try eassumption; [intros y []|intros y []|right; reflexivity|].
      left. split; cbn [f_hwrap f_tail f_head]; [lia|]. cbn [chain]. lia. }
    unfold hz_exact in HX.
    destruct (hz_overwrite f) eqn:HO.
    { unfold hz_overwrite in HO. unfold DESC in *.
      eapply push_write with (keep := []); try eassumption; [intros y []|intros y []|left; reflexivity|].
      cbn [app].
      destruct (f_size f <=? align4 (f_head f)) eqn:EA.
      - (* head ragged below a ragged tail *)
        assert (p = 0 /\ hw = 0) as [-> ->] by lia.
        assert (HT : align4 (f_tail f) = f_size f) by (unfold align4 in *; lia).
        destruct (0 + 16 + zlen data =? f_size f) eqn:EB; [lia|]. apply pair_equal_spec in EH as [<- <-].
        right. exists [], [x]. split; [reflexivity|]. right.
        unfold wrapC; cbn [f_hwrap f_tail f_head f_size].
        repeat split; try lia; try discriminate.
        exists (f_tail f). cbn [chain]. split; [reflexivity|]. lia.
      - assert (HT : align4 (f_tail f) = whead f) by (unfold align4 in *; lia).
        destruct Hcase as [(C1 & C2 & -> & -> & C5)|[(C1 & C2 & C3 & C4 & -> & ->)|[(C1 & C2 & _)|(C1 & _)]]]; try lia.
        + destruct (whead f + 16 + zlen data =? f_size f) eqn:EB; apply pair_equal_spec in EH as [<- <-].
          * right. exists [x], []. split; [reflexivity|]. left. cbn [Z.eqb].
            unfold wrapB; cbn [f_hwrap f_tail f_head f_size].
            repeat split; try lia.
            exists (f_size f). split; [|split; [apply align4_id; lia|reflexivity]].
            cbn [chain]. split; [cbn [e_pos x new_ent]; lia|]. rewrite Hxe. unfold DESC. lia.
          * left. split; cbn [f_hwrap f_tail f_head]; [reflexivity|].
            cbn [chain]. split; [cbn [e_pos x new_ent]; lia|]. rewrite Hxe. unfold DESC. lia.
        + destruct (0 + 16 + zlen data =? f_size f) eqn:EB; [lia|]. apply pair_equal_spec in EH as [<- <-].
          right. exists [], [x]. split; [reflexivity|]. left.
          unfold wrapB; cbn [f_hwrap f_tail f_head f_size].
          repeat split; try lia; try discriminate.
          exists (f_tail f). cbn [chain]. split; [reflexivity|]. lia. }
    unfold hz_overwrite in HO. unfold DESC in *.
    destruct (f_size f <=? align4 (f_head f)) eqn:EA; [lia|].
    destruct Hcase as [(C1 & C2 & _)|[(C1 & C2 & _)|[(C1 & C2 & -> & -> & C5)|(C1 & _)]]]; try lia.
    destruct (whead f + 16 + zlen data =? f_size f) eqn:EB; [lia|]. apply pair_equal_spec in EH as [<- <-].
    eapply push_write with (keep := es1 ++ es2); try eassumption;
      [intros y Hy; assumption| |left; reflexivity|].
    { intros y Hy. pose proof (e_len_nonneg y). apply in_app_or in Hy as [Hy|Hy].
      - pose proof (chain_in _ _ _ _ Hc1 Hy). unfold e_end, DESC in *; lia.
      - pose proof (chain_in _ _ _ _ Hc2 Hy). unfold e_end, DESC in *; lia. }
    right. exists es1, (es2 ++ [x]). split; [rewrite app_assoc; reflexivity|]. right.
    unfold wrapC; cbn [f_hwrap f_tail f_head f_size].
    repeat split; try lia; try assumption.
    * exists e1. auto.
    * replace (whead f + 16 + zlen data) with (e_end x) by (rewrite Hxe; unfold DESC; lia).
      apply chain_snoc with (e := f_head f); [assumption|]. cbn [e_pos x new_ent]. lia.
    * intros Habs. destruct es2; discriminate.
Qed.
