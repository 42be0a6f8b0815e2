(** Proofs about the packet FIFO model. *)
From Verif Require Import Base Fifo.

Definition align4 (x : Z) : Z := x + (- x) mod 4.

Record ent := { e_pos : Z; e_flags : Z; e_time : Z; e_data : list Z }.
Definition e_len (e : ent) := zlen (e_data e).
Definition e_end (e : ent) := e_pos e + DESC + e_len e.
Definition e_desc (e : ent) : pkt_desc :=
  {| d_pos := e_pos e; d_len := e_len e; d_flags := e_flags e; d_time := e_time e |}.
Definition to_entry (e : ent) : entry :=
  {| en_flags := e_flags e; en_time := e_time e; en_data := e_data e |}.

Definition ent_in (m : list Z) (e : ent) : Prop :=
  mread m (e_pos e) DESC = Some (enc_desc (e_desc e)) /\
  mread m (e_pos e + DESC) (e_len e) = Some (e_data e) /\
  0 <= e_flags e < 2^32 /\ 0 <= e_time e < 2^32.

(** Entries laid out back to back from [t] to [e]. *)
Fixpoint chain (t : Z) (es : list ent) (e : Z) : Prop :=
  match es with
  | [] => t = e
  | x :: es => e_pos x = align4 t /\ chain (e_end x) es e
  end.

(** Decoding a descriptor. *)
Lemma unle32_le32 x : 0 <= x < 2^32 -> unle32 (le32 x) = x.
Proof. intros H. unfold unle32, le32. cbn [nth]. lia. Qed.
Lemma dec_enc d : 0 <= d_pos d < 2^32 -> 0 <= d_len d < 2^32 -> 0 <= d_flags d < 2^32 ->
  0 <= d_time d < 2^32 -> dec_desc (enc_desc d) = d.
Proof.
  intros H1 H2 H3 H4. destruct d as [p l fl t]. unfold dec_desc, enc_desc.
  cbn [d_pos d_len d_flags d_time] in *.
  change (firstn 4 _) with (le32 p) at 1.
  change (firstn 4 (skipn 4 _)) with (le32 l).
  change (firstn 4 (skipn 8 _)) with (le32 fl).
  change (firstn 4 (skipn 12 _)) with (le32 t).
  rewrite !unle32_le32 by assumption. reflexivity.
Qed.
Lemma zlen_enc d : zlen (enc_desc d) = DESC.
Proof. reflexivity. Qed.

Lemma e_len_nonneg e : 0 <= e_len e. Proof. apply zlen_nonneg. Qed.
Lemma align4_prop x : x <= align4 x < x + 4 /\ align4 x mod 4 = 0.
Proof. unfold align4. lia. Qed.
Lemma align4_id x : x mod 4 = 0 -> align4 x = x.
Proof. unfold align4. lia. Qed.

Lemma chain_le t es e : chain t es e -> t <= e.
Proof.
  revert t; induction es as [|x es IH]; cbn [chain]; intros t H; [lia|].
  destruct H as [H1 H2]. apply IH in H2. unfold e_end, DESC in H2.
  pose proof (e_len_nonneg x). pose proof (align4_prop t). lia.
Qed.
Lemma chain_cons_bounds t x es e : chain t (x :: es) e ->
  e_pos x = align4 t /\ t <= e_pos x /\ e_pos x + DESC + e_len x <= e /\ t + DESC <= e.
Proof.
  cbn [chain]. intros [H1 H2]. pose proof (chain_le _ _ _ H2) as HL.
  unfold e_end in HL. pose proof (align4_prop t). pose proof (e_len_nonneg x). lia.
Qed.
Lemma chain_app t es1 x es2 e : chain t es1 x -> chain x es2 e -> chain t (es1 ++ es2) e.
Proof.
  revert t; induction es1 as [|y es1 IH]; cbn [chain app]; intros t H1 H2; [subst; assumption|].
  destruct H1 as [H1 H3]. split; [assumption|]. apply IH; assumption.
Qed.
Lemma chain_app_inv t es1 es2 e : chain t (es1 ++ es2) e -> exists x, chain t es1 x /\ chain x es2 e.
Proof.
  revert t; induction es1 as [|y es1 IH]; cbn [chain app]; intros t H1; [eauto|].
  destruct H1 as [H1 H3]. apply IH in H3 as (x & H4 & H5). eauto.
Qed.
Lemma chain_in t es e x : chain t es e -> In x es ->
  t <= e_pos x /\ e_end x <= e /\ e_pos x mod 4 = 0.
Proof.
  revert t; induction es as [|y es IH]; cbn [chain In]; intros t H Hin; [contradiction|].
  destruct H as [H1 H2]. pose proof (chain_le _ _ _ H2) as HL.
  pose proof (align4_prop t) as HA. pose proof (e_len_nonneg y) as HN.
  destruct Hin as [->|Hin].
  - unfold e_end in *. lia.
  - apply IH in H2; [|assumption]. unfold e_end, DESC in *. lia.
Qed.
Lemma chain_nonempty_end t es e : chain t es e -> es <> [] -> t + DESC <= e.
Proof. destruct es; [contradiction|]. intros H _. apply chain_cons_bounds in H. lia. Qed.
Lemma chain_snoc t es e x : chain t es e -> e_pos x = align4 e -> chain t (es ++ [x]) (e_end x).
Proof. intros. eapply chain_app; [eassumption|]. cbn [chain]. auto. Qed.
Lemma chain_empty t es : chain t es t -> es = [].
Proof. destruct es; [reflexivity|]. intros H. apply chain_cons_bounds in H. unfold DESC in H. lia. Qed.
Lemma chain_align t x es e : chain t (x :: es) e -> chain (align4 t) (x :: es) e.
Proof.
  cbn [chain]. intros [H1 H2]. split; [|assumption].
  rewrite align4_id; [assumption|]. apply align4_prop.
Qed.
Lemma chain_from_align t es e : es <> [] -> chain (align4 t) es e -> chain t es e.
Proof.
  destruct es as [|x es]; [contradiction|]. intros _. cbn [chain]. intros [H1 H2].
  split; [|assumption]. rewrite align4_id in H1 by apply align4_prop. assumption.
Qed.

(** Well-formed state.  [WF f es]: the live entries of [f] are [es], oldest
    first.  Three layouts: linear, wrapped with an explicit marker, wrapped
    without one (head was rounded up past the end of the storage). *)
Definition base_ok (f : fifo) : Prop :=
  f_size f mod 4 = 0 /\ DESC <= f_size f <= 2^31 /\ zlen (f_data f) = f_size f /\
  0 <= f_head f < f_size f /\ 0 <= f_tail f < f_size f.

Definition lin (f : fifo) (es : list ent) : Prop :=
  f_hwrap f = 0 /\ chain (f_tail f) es (f_head f).
Definition wrapB (f : fifo) (es1 es2 : list ent) : Prop :=
  f_hwrap f <> 0 /\ 0 <= f_hwrap f <= f_size f /\ f_tail f <= f_hwrap f /\ f_head f <= f_tail f /\
  (exists e1, chain (f_tail f) es1 e1 /\ align4 e1 = f_hwrap f /\ (f_hwrap f = f_size f -> e1 = f_size f)) /\
  chain 0 es2 (f_head f) /\ (es2 = [] -> f_hwrap f = f_size f).
Definition wrapC (f : fifo) (es1 es2 : list ent) : Prop :=
  f_hwrap f = 0 /\ f_head f < f_tail f /\
  (exists e1, chain (f_tail f) es1 e1 /\ align4 e1 = f_size f /\ e1 < f_size f) /\
  chain 0 es2 (f_head f) /\ es2 <> [].

Definition layout (f : fifo) (es : list ent) : Prop :=
  lin f es \/ (exists es1 es2, es = es1 ++ es2 /\ (wrapB f es1 es2 \/ wrapC f es1 es2)).
Definition last_ok (f : fifo) (es : list ent) : Prop :=
  forall x xs, es = xs ++ [x] -> f_last_valid f = 1 /\ f_last_pos f = e_pos x.
Definition WF (f : fifo) (es : list ent) : Prop :=
  base_ok f /\ layout f es /\ Forall (ent_in (f_data f)) es.

Lemma WF_init data size : size mod 4 = 0 -> DESC <= size <= 2^31 -> zlen data = size ->
  WF (fifo_init data size) [].
Proof.
  intros. split; [|split].
  - unfold base_ok, fifo_init; cbn. unfold DESC in *. lia.
  - left. unfold lin, fifo_init; cbn. auto.
  - constructor.
Qed.

Ltac dif :=
  match goal with
  | |- context [if ?b then _ else _] => destruct b eqn:?
  | H : context [if ?b then _ else _] |- _ => destruct b eqn:?
  end.

Lemma align_head_spec h size : size mod 4 = 0 -> 0 <= h < size -> size <= 2^31 ->
  fifo_align_head_pos h size = if size <=? align4 h then 0 else align4 h.
Proof.
  intros. unfold fifo_align_head_pos, align4, u32.
  destruct (h mod 4 =? 0) eqn:E.
  - replace (h + (- h) mod 4) with h by lia. reflexivity.
  - rewrite Z.mod_small by lia. replace (h + (- h) mod 4) with (h + (4 - h mod 4)) by lia. reflexivity.
Qed.

(** After [fifo_align_tail] on a non-empty fifo, the tail designates the oldest entry. *)
Definition aligned (f : fifo) (es : list ent) : Prop :=
  (lin f es \/ exists es1 es2, es = es1 ++ es2 /\ es1 <> [] /\ (wrapB f es1 es2 \/ wrapC f es1 es2)).

Lemma align_tail_tail t size : 0 <= t < size -> size <= 2^31 ->
  (if t mod 4 =? 0 then t else u32 (t + (4 - t mod 4))) = align4 t.
Proof.
  intros. unfold align4, u32. destruct (t mod 4 =? 0) eqn:E; [lia|].
  rewrite Z.mod_small by lia. lia.
Qed.

Lemma is_empty_spec f es : WF f es -> fifo_is_empty f = true <-> es = [].
Proof.
  intros ((Hm & Hs & Hd & Hh & Ht) & HL & _). unfold fifo_is_empty. split.
  - intros E. destruct HL as [[Hw Hc]|(es1 & es2 & -> & [HB|HC])].
    + apply chain_empty with (t := f_tail f). replace (f_tail f) with (f_head f) at 2 by lia. assumption.
    + destruct HB as (Hn & _). lia.
    + destruct HC as (Hn & Hlt & _). lia.
  - intros ->. destruct HL as [[Hw Hc]|(es1 & es2 & E & [HB|HC])].
    + cbn [chain] in Hc. lia.
    + symmetry in E. apply app_eq_nil in E as [-> ->].
      destruct HB as (Hn & Hb1 & Hb2 & Hb3 & (e1 & Hc1 & Ha & Hex) & Hc2 & He). cbn [chain] in *.
      specialize (He eq_refl). specialize (Hex He). lia.
    + symmetry in E. apply app_eq_nil in E as [-> ->].
      destruct HC as (_ & _ & _ & _ & Hn). contradiction.
Qed.

Lemma set_tail_wrap_base f t w : base_ok f -> 0 <= t < f_size f -> base_ok (set_tail_wrap f t w).
Proof. unfold base_ok, set_tail_wrap; cbn. tauto. Qed.

Lemma align_tail_spec f x es : WF f (x :: es) ->
  exists t w, fifo_align_tail f = set_tail_wrap f t w /\ t = e_pos x /\
    WF (set_tail_wrap f t w) (x :: es) /\ aligned (set_tail_wrap f t w) (x :: es).
Proof.
  intros HWF. assert (HE : fifo_is_empty f = false).
  { destruct (fifo_is_empty f) eqn:E; [|reflexivity].
    apply (is_empty_spec f _ HWF) in E. discriminate. }
  destruct HWF as (HB & HL & HM). pose proof HB as (Hm & Hs & Hd & Hh & Ht).
  unfold fifo_align_tail. rewrite HE. rewrite (align_tail_tail _ (f_size f)) by lia.
  pose proof (align4_prop (f_tail f)) as HA. pose proof (e_len_nonneg x) as HN.
  destruct HL as [[Hw Hc]|(es1 & es2 & E & [HW|HC])].
  - (* linear *)
    pose proof (chain_cons_bounds _ _ _ _ Hc) as (Hp & _ & Hend & _). unfold DESC in *.
    rewrite Hw. cbn [Z.eqb negb andb].
    destruct ((0 <? f_size f) && (f_size f <=? align4 (f_tail f))) eqn:E1; [lia|].
    destruct (f_size f <? align4 (f_tail f) + 16) eqn:E2; [lia|].
    exists (align4 (f_tail f)), 0. split; [reflexivity|]. split; [lia|].
    assert (HLn : lin (set_tail_wrap f (align4 (f_tail f)) 0) (x :: es)).
    { split; [reflexivity|]. cbn [f_tail f_head set_tail_wrap]. apply chain_align. assumption. }
    split; [|left; assumption].
    split; [apply set_tail_wrap_base; [assumption|lia]|]. split; [left; assumption|exact HM].
  - (* wrapped with marker *)
    destruct HW as (Hn & Hb1 & Hb2 & Hb3 & (e1 & Hc1 & Ha & Hex) & Hc2 & He).
    destruct es1 as [|y es1].
    + cbn [app chain] in *. subst e1 es2.
      pose proof (chain_cons_bounds _ _ _ _ Hc2) as (Hp & _ & Hend & _).
      unfold DESC in *.
      destruct (negb (f_hwrap f =? 0) && (f_hwrap f <=? align4 (f_tail f))) eqn:E1; [|lia].
      cbn [Z.eqb negb andb].
      destruct ((0 <? f_size f) && (f_size f <=? 0)) eqn:E2; [lia|].
      destruct (f_size f <? 0 + 16) eqn:E3; [lia|].
      exists 0, 0. split; [reflexivity|]. split; [unfold align4 in Hp; cbn in Hp; lia|].
      assert (HLn : lin (set_tail_wrap f 0 0) (x :: es)).
      { split; [reflexivity|]. assumption. }
      split; [|left; assumption].
      split; [apply set_tail_wrap_base; [assumption|lia]|]. split; [left; assumption|exact HM].
    + cbn [app] in E. injection E as <- E. subst es.
      pose proof (chain_cons_bounds _ _ _ _ Hc1) as (Hp & _ & Hend & _). unfold DESC in *.
      pose proof (align4_prop e1) as HA1.
      destruct (negb (f_hwrap f =? 0) && (f_hwrap f <=? align4 (f_tail f))) eqn:E1; [lia|].
      destruct (negb (f_hwrap f =? 0) && (align4 (f_tail f) <? f_hwrap f) && (f_hwrap f <? align4 (f_tail f) + 16)) eqn:E4; [lia|].
      destruct ((0 <? f_size f) && (f_size f <=? align4 (f_tail f))) eqn:E2; [lia|].
      destruct (f_size f <? align4 (f_tail f) + 16) eqn:E3; [lia|].
      exists (align4 (f_tail f)), (f_hwrap f). split; [reflexivity|]. split; [lia|].
      assert (HLn : wrapB (set_tail_wrap f (align4 (f_tail f)) (f_hwrap f)) (x :: es1) es2).
      { unfold wrapB; cbn [f_tail f_head f_hwrap f_size set_tail_wrap].
        repeat split; try lia; try assumption.
        exists e1. split; [apply chain_align; assumption|]. split; assumption. }
      split.
      * split; [apply set_tail_wrap_base; [assumption|lia]|]. split; [|exact HM].
        right. exists (x :: es1), es2. split; [reflexivity|]. left. assumption.
      * right. exists (x :: es1), es2. split; [reflexivity|]. split; [discriminate|]. left. assumption.
  - (* wrapped without marker *)
    destruct HC as (Hn & Hlt & (e1 & Hc1 & Ha & Hex) & Hc2 & He).
    rewrite Hn. cbn [Z.eqb negb andb].
    destruct es1 as [|y es1].
    + cbn [app chain] in *. subst e1 es2.
      pose proof (chain_cons_bounds _ _ _ _ Hc2) as (Hp & _ & Hend & _). unfold DESC in *.
      destruct ((0 <? f_size f) && (f_size f <=? align4 (f_tail f))) eqn:E2; [|lia].
      rewrite Ha, Z.mod_same by lia.
      destruct (f_size f <? 0 + 16) eqn:E3; [lia|].
      exists 0, 0. split; [reflexivity|]. split; [unfold align4 in Hp; cbn in Hp; lia|].
      assert (HLn : lin (set_tail_wrap f 0 0) (x :: es)).
      { split; [reflexivity|]. assumption. }
      split; [|left; assumption].
      split; [apply set_tail_wrap_base; [assumption|lia]|]. split; [left; assumption|exact HM].
    + cbn [app] in E. injection E as <- E. subst es.
      pose proof (chain_cons_bounds _ _ _ _ Hc1) as (Hp & _ & Hend & _). unfold DESC in *.
      destruct ((0 <? f_size f) && (f_size f <=? align4 (f_tail f))) eqn:E2; [lia|].
      destruct (f_size f <? align4 (f_tail f) + 16) eqn:E3; [lia|].
      exists (align4 (f_tail f)), 0. split; [reflexivity|]. split; [lia|].
      assert (HLn : wrapC (set_tail_wrap f (align4 (f_tail f)) 0) (x :: es1) es2).
      { unfold wrapC; cbn [f_tail f_head f_hwrap f_size set_tail_wrap].
        repeat split; try lia; try assumption.
        exists e1. split; [apply chain_align; assumption|]. split; assumption. }
      split.
      * split; [apply set_tail_wrap_base; [assumption|lia]|]. split; [|exact HM].
        right. exists (x :: es1), es2. split; [reflexivity|]. right. assumption.
      * right. exists (x :: es1), es2. split; [reflexivity|]. split; [discriminate|]. right. assumption.
Qed.

(** Loading an entry. *)
Lemma WF_entry_bounds f es x : WF f es -> In x es -> 0 <= e_pos x /\ e_end x <= f_size f /\ e_pos x mod 4 = 0.
Proof.
  intros ((Hm & Hs & Hd & Hh & Ht) & HL & HM) Hin.
  destruct HL as [[Hw Hc]|(es1 & es2 & -> & [HB|HC])].
  - pose proof (chain_in _ _ _ _ Hc Hin). lia.
  - destruct HB as (Hn & Hb1 & Hb2 & Hb3 & (e1 & Hc1 & Ha & Hex) & Hc2 & He).
    apply in_app_or in Hin as [Hin|Hin].
    + pose proof (chain_in _ _ _ _ Hc1 Hin). pose proof (align4_prop e1). lia.
    + pose proof (chain_in _ _ _ _ Hc2 Hin). lia.
  - destruct HC as (Hn & Hlt & (e1 & Hc1 & Ha & Hex) & Hc2 & He).
    apply in_app_or in Hin as [Hin|Hin].
    + pose proof (chain_in _ _ _ _ Hc1 Hin). lia.
    + pose proof (chain_in _ _ _ _ Hc2 Hin). lia.
Qed.
Lemma load_desc_spec f es x : WF f es -> In x es -> load_desc f (e_pos x) = Some (e_desc x).
Proof.
  intros HWF Hin. pose proof (WF_entry_bounds _ _ _ HWF Hin) as (Hp & He & _).
  destruct HWF as ((Hm & Hs & Hd & Hh & Ht) & HL & HM).
  rewrite Forall_forall in HM. specialize (HM _ Hin). destruct HM as (H1 & H2 & H3 & H4).
  unfold load_desc. rewrite H1. cbn [obind]. f_equal. pose proof (e_len_nonneg x).
  unfold e_end, DESC in *. apply dec_enc; cbn [d_pos d_len d_flags d_time e_desc]; try assumption; lia.
Qed.
Lemma load_entry_spec f es x : WF f es -> In x es -> load_entry f (e_pos x) = Some (to_entry x).
Proof.
  intros HWF Hin. unfold load_entry. rewrite (load_desc_spec _ _ _ HWF Hin). cbn [obind].
  destruct HWF as (_ & _ & HM). rewrite Forall_forall in HM. specialize (HM _ Hin).
  destruct HM as (H1 & H2 & H3 & H4). unfold load_payload. cbn [d_len e_desc].
  rewrite H2. reflexivity.
Qed.

(** Pop. *)
Lemma fifo_pop_empty f : WF f [] -> fifo_pop f = Some (f, None).
Proof.
  intros H. unfold fifo_pop. assert (E : fifo_is_empty f = true) by (apply (is_empty_spec _ _ H); reflexivity).
  rewrite E. reflexivity.
Qed.

Lemma fifo_pop_cons f x es : WF f (x :: es) ->
  exists f', fifo_pop f = Some (f', Some (e_pos x)) /\ WF f' es /\
    f_data f' = f_data f /\ f_size f' = f_size f /\ f_last_pos f' = f_last_pos f /\
    (es <> [] -> f_last_valid f' = f_last_valid f) /\
    f_head f' = f_head f /\ (f_tail f' = e_end x \/ f_tail f' = 0).
Proof.
  intros HWF. assert (HE : fifo_is_empty f = false).
  { destruct (fifo_is_empty f) eqn:E; [|reflexivity].
    apply (is_empty_spec f _ HWF) in E. discriminate. }
  destruct (align_tail_spec _ _ _ HWF) as (t & w & HT & Htx & HWF' & HA).
  unfold fifo_pop. rewrite HE, HT.
  set (g := set_tail_wrap f t w) in *.
  assert (HEg : fifo_is_empty g = false).
  { destruct (fifo_is_empty g) eqn:E; [|reflexivity].
    apply (is_empty_spec g _ HWF') in E. discriminate. }
  rewrite HEg. replace (f_tail g) with (e_pos x) by (subst g; cbn; congruence).
  rewrite (load_desc_spec g (x :: es) x HWF' (or_introl eq_refl)). cbn [obind].
  pose proof (WF_entry_bounds g _ x HWF' (or_introl eq_refl)) as (Hpx & Hex & Hax).
  pose proof (e_len_nonneg x) as HN.
  cbn [d_len e_desc].
  pose proof HWF' as (HB & HL & HM). pose proof HB as (Hm & Hs & Hd & Hh & Ht).
  assert (HM' : Forall (ent_in (f_data g)) es) by (inversion HM; assumption).
  assert (Hu : u32 (e_pos x + DESC + e_len x) = e_end x).
  { unfold u32. rewrite Z.mod_small; [reflexivity|]. unfold e_end in *. unfold DESC in *. lia. }
  rewrite Hu. unfold e_end in Hex.
  (* final record equality and WF, given the resulting tail/hwrap *)
  assert (FIN : forall t' w', 0 <= t' < f_size g /\ (t' = e_end x \/ t' = 0) -> layout (set_tail_wrap g t' w') es ->
    exists f', Some
      (if fifo_is_empty (set_tail_wrap g t' w') then
       {| f_head := f_head (set_tail_wrap g t' w'); f_tail := f_tail (set_tail_wrap g t' w');
          f_size := f_size (set_tail_wrap g t' w'); f_hwrap := f_hwrap (set_tail_wrap g t' w');
          f_last_pos := f_last_pos (set_tail_wrap g t' w'); f_last_valid := 0;
          f_data := f_data (set_tail_wrap g t' w') |} else set_tail_wrap g t' w', Some (e_pos x)) =
      Some (f', Some (e_pos x)) /\ WF f' es /\ f_data f' = f_data f /\ f_size f' = f_size f /\
      f_last_pos f' = f_last_pos f /\ (es <> [] -> f_last_valid f' = f_last_valid f) /\
      f_head f' = f_head f /\ (f_tail f' = e_end x \/ f_tail f' = 0)).
  { intros t' w' [Hr Hr2] HLy.
    assert (HWg : WF (set_tail_wrap g t' w') es).
    { split; [apply set_tail_wrap_base; assumption|]. split; assumption. }
    eexists. split; [reflexivity|].
    destruct (fifo_is_empty (set_tail_wrap g t' w')) eqn:E.
    - split; [|cbn [f_data f_size f_last_pos f_last_valid f_head f_tail set_tail_wrap]; repeat split; try reflexivity; try assumption].
      + destruct HWg as (G1 & G2 & G3). split; [exact G1|]. split; [exact G2|exact G3].
      + intros Hne. apply (is_empty_spec _ _ HWg) in E. contradiction.
    - split; [assumption|]. cbn [f_data f_size f_last_pos f_last_valid f_head f_tail set_tail_wrap]; auto 10. }
  destruct HA as [[Hw Hc]|(es1 & es2 & E & Hne & [HW|HC])].
  - (* linear *)
    rewrite Hw. cbn [Z.eqb negb andb].
    cbn [chain] in Hc. destruct Hc as [Hc1 Hc2].
    pose proof (chain_le _ _ _ Hc2) as HL2.
    replace (if e_end x =? f_head g then 0 else 0) with 0 by (destruct (e_end x =? f_head g); reflexivity).
    destruct (f_size g <=? e_end x) eqn:E2; [lia|].
    apply FIN; [split; [unfold e_end, DESC in *; lia|left; reflexivity]|].
    left. split; [reflexivity|]. exact Hc2.
  - (* marker *)
    destruct es1 as [|y es1]; [contradiction|]. cbn [app] in E. injection E as <- E. subst es.
    destruct HW as (Hn & Hb1 & Hb2 & Hb3 & (e1 & Hc1 & Ha & Hxe) & Hc2 & He).
    cbn [chain] in Hc1. destruct Hc1 as [Hc0 Hc1].
    pose proof (chain_le _ _ _ Hc1) as HL1. pose proof (align4_prop e1) as HA1.
    destruct (negb (f_hwrap g =? 0) && (f_hwrap g <=? e_end x)) eqn:E1.
    + (* tail reaches the marker *)
      assert (es1 = []).
      { destruct es1; [reflexivity|]. apply chain_nonempty_end in Hc1; [|discriminate]. unfold DESC in *. lia. }
      subst es1. cbn [chain] in Hc1. cbn [app] in *.
      replace (e_end x - f_hwrap g) with 0 by lia.
      destruct (f_size g <=? 0) eqn:E2; [unfold DESC in *; lia|].
      replace (if 0 =? f_head g then 0 else 0) with 0 by (destruct (0 =? f_head g); reflexivity).
      apply FIN; [split; [unfold DESC in *; lia|right; reflexivity]|].
      left. split; [reflexivity|]. exact Hc2.
    + destruct (e_end x =? f_head g) eqn:E2.
      { pose proof (align4_prop (f_tail g)). unfold e_end, DESC in *. lia. }
      destruct (f_size g <=? e_end x) eqn:E3.
      { lia. }
      apply FIN; [split; [unfold e_end, DESC in *; lia|left; reflexivity]|].
      right. exists es1, es2. split; [reflexivity|]. left.
      unfold wrapB; cbn [f_tail f_head f_hwrap f_size set_tail_wrap].
      pose proof (align4_prop (f_tail g)).
      repeat split; try (unfold e_end, DESC in *; lia); try assumption.
      exists e1. auto.
  - (* no marker *)
    destruct es1 as [|y es1]; [contradiction|]. cbn [app] in E. injection E as <- E. subst es.
    destruct HC as (Hn & Hlt & (e1 & Hc1 & Ha & Hxe) & Hc2 & He).
    cbn [chain] in Hc1. destruct Hc1 as [Hc0 Hc1].
    pose proof (chain_le _ _ _ Hc1) as HL1. pose proof (align4_prop e1) as HA1.
    rewrite Hn. cbn [Z.eqb negb andb].
    replace (if e_end x =? f_head g then 0 else 0) with 0 by (destruct (e_end x =? f_head g); reflexivity).
    destruct (f_size g <=? e_end x) eqn:E3; [lia|].
    apply FIN; [split; [unfold e_end, DESC in *; lia|left; reflexivity]|].
    right. exists es1, es2. split; [reflexivity|]. right.
    unfold wrapC; cbn [f_tail f_head f_hwrap f_size set_tail_wrap].
    pose proof (align4_prop (f_tail g)).
    repeat split; try (unfold e_end, DESC in *; lia); try assumption.
    exists e1. auto.
Qed.

