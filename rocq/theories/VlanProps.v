(** C28: VLAN table integrity and tag handling. *)
From Verif Require Import Base Bits ListUtil Arp Mtu MtuProps Vlan.

(** * Specification: a finite map from interface index to configuration *)
Definition vmap := nat -> option vcfg.
Definition vempty : vmap := fun _ => None.
Definition vupd (m : vmap) (i : nat) (v : option vcfg) : vmap := fun j => if Nat.eqb j i then v else m j.
(** C argument ranges: uint16_t vid, uint8_t pcp and dei *)
Definition vop_ok (o : vop) : Prop :=
  match o with VCreate _ vid pcp dei => 0 <= vid < 65536 /\ 0 <= pcp < 256 /\ 0 <= dei < 256 | _ => True end.
(** one API call *)
Inductive vspec (m : vmap) : vop -> vres -> vmap -> Prop :=
| SCreated p vid pcp dei i : m i = None -> m p = None -> i <> p ->
    0 <= vid <= 4094 -> 0 <= pcp <= 7 -> 0 <= dei <= 1 ->
    (forall j c, m j = Some c -> ~ (vc_parent c = p /\ vc_vid c = vid)) ->
    vspec m (VCreate p vid pcp dei) (RCreate (Some i)) (vupd m i (Some {| vc_parent := p; vc_vid := vid; vc_pcp := pcp; vc_dei := dei |}))
| SNotCreated p vid pcp dei : vspec m (VCreate p vid pcp dei) (RCreate None) m
| SDeleted i c : m i = Some c -> vspec m (VDelete i) (RDelete true) (vupd m i None)
| SNotDeleted i : m i = None -> vspec m (VDelete i) (RDelete false) m
| SGet i : vspec m (VGet i) (RGet (m i)) m
| SSetup i a b c mt mac nm : vspec m (VSetup i a b c mt mac nm) RSetup m.
Inductive vspec_run : vmap -> list vop -> list vres -> vmap -> Prop :=
| VR_nil m : vspec_run m [] [] m
| VR_cons m o r m1 os rs m2 m1' : vspec m o r m1 -> (forall i, m1' i = m1 i) -> vspec_run m1' os rs m2 -> vspec_run m (o :: os) (r :: rs) m2.
(** the map holds at most four entries *)
Definition at_most_four (m : vmap) : Prop := forall l, NoDup l -> (forall i, In i l -> m i <> None) -> zlen l <= 4.

(** * Proofs *)
Definition VInv (t : list dev) : Prop :=
  (forall i d c, nth_error t i = Some d -> d_vlan d = Some c ->
     (vc_parent c < length t)%nat /\ 0 <= vc_vid c <= 4094 /\ 0 <= vc_pcp c <= 7 /\ 0 <= vc_dei c <= 1) /\
  (forall i j d e c c', nth_error t i = Some d -> nth_error t j = Some e -> d_vlan d = Some c -> d_vlan e = Some c' ->
     vc_parent c = vc_parent c' -> vc_vid c = vc_vid c' -> i = j) /\
  zlen (filter is_vlan t) <= 4.

Lemma get_some t i c : VInv t -> vlan_get t i = Some c <-> exists d, nth_error t i = Some d /\ d_vlan d = Some c.
Proof.
  intros (H1 & _). unfold vlan_get. destruct (nth_error t i) as [d|] eqn:E; [|split; [discriminate|intros (? & ? & _); discriminate]].
  destruct (d_vlan d) as [c'|] eqn:E2.
  - destruct (H1 _ _ _ E E2) as (L & _). destruct (Nat.ltb_spec (vc_parent c') (length t)); [|lia].
    split; [intros X; exists d; split; [reflexivity|congruence]|]. intros (d' & X & Y). congruence.
  - split; [discriminate|]. intros (d' & X & Y). congruence.
Qed.
Lemma get_none t i : VInv t -> (vlan_get t i = None <-> forall d, nth_error t i = Some d -> d_vlan d = None).
Proof.
  intros H. split.
  - intros G d E. destruct (d_vlan d) eqn:E2; [|reflexivity]. assert (vlan_get t i = Some v) by (apply get_some; eauto). congruence.
  - intros G. destruct (vlan_get t i) eqn:E; [|reflexivity]. apply get_some in E; [|assumption]. destruct E as (d & X & Y). rewrite (G d X) in Y. discriminate.
Qed.
Lemma find_slot_spec p t : forall k i, find_slot p k t = Some i ->
  exists d, (k <= i)%nat /\ nth_error t (i - k) = Some d /\ slot_free d = true /\ i <> p.
Proof.
  induction t as [|d t IH]; intros k i; cbn [find_slot]; [discriminate|].
  destruct (negb (Nat.eqb k p) && slot_free d) eqn:E.
  - intros [= <-]. exists d. apply andb_true_iff in E as (E1 & E2). rewrite Nat.sub_diag. cbn. repeat split; auto. apply negb_true_iff, Nat.eqb_neq in E1. exact E1.
  - intros F. destruct (IH _ _ F) as (d' & L & N & SF & P). exists d'. split; [lia|]. split; [|auto].
    replace (i - k)%nat with (S (i - S k)) by lia. exact N.
Qed.
Lemma find_slot_none p t : forall k, find_slot p k t = None -> forall i d, nth_error t i = Some d -> slot_free d = true -> (i + k = p)%nat.
Proof.
  induction t as [|d t IH]; intros k H i e; cbn [find_slot] in H; [destruct i; discriminate|].
  destruct (negb (Nat.eqb k p) && slot_free d) eqn:E; [discriminate|].
  destruct i as [|i]; cbn [nth_error].
  - intros [= ->] S. rewrite S, andb_true_r in E. apply negb_false_iff, Nat.eqb_eq in E. lia.
  - intros N S. specialize (IH _ H _ _ N S). lia.
Qed.
Lemma slot_free_novlan d : slot_free d = true -> d_vlan d = None.
Proof. unfold slot_free, is_vlan. destruct (d_vlan d); [discriminate|reflexivity]. Qed.
Lemma count_set t : forall i d e, nth_error t i = Some d ->
  zlen (filter is_vlan (set_nth i e t)) = zlen (filter is_vlan t) - (if is_vlan d then 1 else 0) + (if is_vlan e then 1 else 0).
Proof.
  induction t as [|x t IH]; intros [|i] d e; cbn [nth_error]; try discriminate.
  - intros [= ->]. cbn [set_nth filter]. destruct (is_vlan e), (is_vlan d); rewrite ?zlen_cons; lia.
  - intros N. cbn [set_nth filter]. specialize (IH _ _ e N). destruct (is_vlan x); rewrite ?zlen_cons; lia.
Qed.
Lemma nth_set t i (d e : dev) j : nth_error t i = Some d ->
  nth_error (set_nth i e t) j = if Nat.eqb j i then Some e else nth_error t j.
Proof.
  intros N. destruct (Nat.eqb_spec j i).
  - subst. apply set_nth_same. apply nth_error_Some. congruence.
  - apply set_nth_other. auto.
Qed.
Lemma set_inv t i d e : nth_error t i = Some d -> VInv t ->
  (forall c, d_vlan e = Some c -> (vc_parent c < length t)%nat /\ 0 <= vc_vid c <= 4094 /\ 0 <= vc_pcp c <= 7 /\ 0 <= vc_dei c <= 1) ->
  (forall c j x c', d_vlan e = Some c -> nth_error t j = Some x -> d_vlan x = Some c' -> vc_parent c = vc_parent c' -> vc_vid c = vc_vid c' -> j = i) ->
  (is_vlan e = true -> is_vlan d = true \/ zlen (filter is_vlan t) < 4) ->
  VInv (set_nth i e t).
Proof.
  intros N (H1 & H2 & H3) A B C. split; [|split].
  - intros j x c Nj Vx. rewrite set_nth_length. rewrite (nth_set _ _ _ _ _ N) in Nj.
    destruct (Nat.eqb_spec j i).
    + injection Nj as <-. apply A. exact Vx.
    + apply (H1 _ _ _ Nj Vx).
  - intros j k x y c c' Nj Nk Vx Vy P V. rewrite (nth_set _ _ _ _ _ N) in Nj. rewrite (nth_set _ _ _ _ _ N) in Nk.
    destruct (Nat.eqb_spec j i); destruct (Nat.eqb_spec k i).
    + congruence.
    + injection Nj as <-. subst. symmetry. apply (B _ _ _ _ Vx Nk Vy P V).
    + injection Nk as <-. subst. apply (B _ _ _ _ Vy Nj Vx (eq_sym P) (eq_sym V)).
    + apply (H2 _ _ _ _ _ _ Nj Nk Vx Vy P V).
  - rewrite (count_set _ _ _ _ N). destruct (is_vlan e) eqn:E; [destruct (C eq_refl) as [D|D]; rewrite ?D; destruct (is_vlan d); lia|destruct (is_vlan d); lia].
Qed.
Lemma get_set t i d e j : nth_error t i = Some d -> (forall c, d_vlan e = Some c -> (vc_parent c < length t)%nat) ->
  vlan_get (set_nth i e t) j = if Nat.eqb j i then d_vlan e else vlan_get t j.
Proof.
  intros N L. unfold vlan_get. rewrite (nth_set _ _ _ _ _ N), set_nth_length. destruct (Nat.eqb j i); [|reflexivity].
  destruct (d_vlan e) as [c|]; [|reflexivity]. specialize (L c eq_refl). destruct (Nat.ltb_spec (vc_parent c) (length t)); [reflexivity|lia].
Qed.
Lemma existsb_dup t p vid : existsb (vlan_dup p vid) t = true <->
  exists j d c, nth_error t j = Some d /\ d_vlan d = Some c /\ vc_parent c = p /\ vc_vid c = vid.
Proof.
  rewrite existsb_exists. split.
  - intros (d & I & D). apply In_nth_error in I as (j & N). unfold vlan_dup in D. destruct (d_vlan d) as [c|] eqn:E; [|discriminate].
    apply andb_true_iff in D as (A & B). apply Nat.eqb_eq in A. exists j, d, c. repeat split; auto. lia.
  - intros (j & d & c & N & V & P & I). exists d. split; [apply nth_error_In with j; exact N|]. unfold vlan_dup. rewrite V, P, I, Nat.eqb_refl, Z.eqb_refl. reflexivity.
Qed.
Lemma step_spec t o : VInv t -> vop_ok o -> VInv (fst (vstep t o)) /\
  exists m', vspec (vlan_get t) o (snd (vstep t o)) m' /\ forall i, vlan_get (fst (vstep t o)) i = m' i.
Proof.
  intros HI HO. destruct o as [p vid pcp dei|i|i|i a b c mt mac nm]; cbn [vstep vop_ok] in *.
  - unfold vlan_create. destruct (nth_error t p) as [pd|] eqn:EP.
    2:{ split; [exact HI|]. eexists. split; [apply SNotCreated|reflexivity]. }
    assert (NC : VInv t /\ exists m' : vmap, vspec (vlan_get t) (VCreate p vid pcp dei) (RCreate None) m' /\ forall i, vlan_get t i = m' i).
    { split; [exact HI|]. eexists. split; [apply SNotCreated|reflexivity]. }
    destruct (is_vlan pd) eqn:E1; [exact NC|]. destruct (negb (d_send pd)) eqn:E2; [exact NC|]. destruct (d_noneth pd) eqn:E3; [exact NC|].
    destruct (Z.ltb_spec 4094 vid); [exact NC|]. destruct (Z.ltb_spec 7 pcp); [exact NC|]. destruct (Z.ltb_spec 1 dei); [exact NC|].
    destruct (existsb (vlan_dup p vid) t) eqn:E4; [exact NC|]. destruct (Z.leb_spec 4 (zlen (filter is_vlan t))); [exact NC|].
    destruct (find_slot p 0 t) as [i|] eqn:E5; [|exact NC]. clear NC.
    destruct (find_slot_spec _ _ _ _ E5) as (d & _ & N & S & NP). rewrite Nat.sub_0_r in N. apply slot_free_novlan in S.
    assert (PL : (p < length t)%nat) by (apply nth_error_Some; congruence).
    assert (ND : forall j x c', nth_error t j = Some x -> d_vlan x = Some c' -> ~ (vc_parent c' = p /\ vc_vid c' = vid)).
    { intros j x c' Nj V (P & I). assert (existsb (vlan_dup p vid) t = true) by (apply existsb_dup; eauto 8). congruence. }
    cbn [fst snd]. split.
    + apply set_inv with d; auto; cbn [d_vlan].
      * intros c [= <-]. cbn. lia.
      * intros c j x c' [= <-] Nj V P I. cbn in P, I. exfalso. apply (ND _ _ _ Nj V). auto.
    + eexists. split.
      * apply SCreated; auto; try lia.
        -- apply get_none; auto. intros d' X. congruence.
        -- apply get_none; auto. intros d' X. rewrite EP in X. injection X as <-. unfold is_vlan in E1. destruct (d_vlan pd); [discriminate|reflexivity].
        -- intros j c' G. apply get_some in G; [|assumption]. destruct G as (x & Nj & V). eauto.
      * intros j. rewrite (get_set _ _ _ _ _ N); [reflexivity|]. cbn. intros c' [= <-]. exact PL.
  - unfold vlan_delete. destruct (nth_error t i) as [d|] eqn:N.
    2:{ split; [exact HI|]. eexists. split; [apply SNotDeleted|reflexivity]. apply get_none; auto. congruence. }
    destruct (is_vlan d) eqn:E.
    + unfold is_vlan in E. destruct (d_vlan d) as [c|] eqn:V; [|discriminate]. cbn [fst snd]. split.
      * apply set_inv with d; auto; cbn; discriminate.
      * eexists. split; [apply SDeleted with c; apply get_some; eauto|]. intros j. rewrite (get_set _ _ _ _ _ N); [reflexivity|]. discriminate.
    + split; [exact HI|]. eexists. split; [apply SNotDeleted|reflexivity]. apply get_none; auto. intros d' X. rewrite N in X. injection X as <-.
      unfold is_vlan in E. destruct (d_vlan d); [discriminate|reflexivity].
  - split; [exact HI|]. eexists. split; [apply SGet|reflexivity].
  - unfold dev_setup. destruct (nth_error t i) as [d|] eqn:N.
    2:{ split; [exact HI|]. eexists. split; [apply SSetup|reflexivity]. }
    cbn [fst snd]. pose proof HI as (H1 & H2 & H3). split.
    + apply set_inv with d; auto; cbn [d_vlan].
      * intros c' V. apply (H1 _ _ _ N V).
      * intros c' j x c2 V Nj V2 P I. symmetry. apply (H2 _ _ _ _ _ _ N Nj V V2 P I).
    + eexists. split; [apply SSetup|]. intros j. rewrite (get_set _ _ _ _ _ N).
      * destruct (Nat.eqb_spec j i); [|reflexivity]. subst. cbn [d_vlan]. destruct (d_vlan d) as [c'|] eqn:V.
        -- symmetry. apply get_some; eauto.
        -- symmetry. apply get_none; auto. congruence.
      * cbn [d_vlan]. intros c' V. apply (H1 _ _ _ N V).
Qed.
Lemma init_vinv n : VInv (vinit n).
Proof.
  assert (R : forall i d, nth_error (vinit n) i = Some d -> d = dev0).
  { intros i d N. apply nth_error_In in N. apply repeat_spec in N. exact N. }
  split; [|split].
  - intros i d c N V. rewrite (R _ _ N) in V. discriminate.
  - intros i j d e c c' N _ V. rewrite (R _ _ N) in V. discriminate.
  - assert (E : filter is_vlan (vinit n) = []) by (clear; unfold vinit; induction n; cbn; auto). rewrite E. cbn. lia.
Qed.
Lemma run_inv os : forall t, VInv t -> Forall vop_ok os -> VInv (fst (vrun t os)).
Proof.
  induction os as [|o os IH]; intros t HI HO; cbn [vrun]; [exact HI|]. inversion HO; subst.
  destruct (step_spec t o HI ltac:(assumption)) as (H & _). destruct (vstep t o) as [t1 r]. specialize (IH t1 H ltac:(assumption)).
  destruct (vrun t1 os). exact IH.
Qed.
Lemma spec_run_ext os : forall m m0 rs m', vspec_run m os rs m' -> (forall i, m0 i = m i) -> exists m0', vspec_run m0 os rs m0' /\ forall i, m0' i = m' i.
Proof.
  destruct os as [|o os]; intros m m0 rs m' H E; inversion H; subst.
  - exists m0. split; [constructor|exact E].
  - exists m'. split; [|reflexivity].
    assert (X : exists m1'', vspec m0 o r m1'' /\ forall i, m1' i = m1'' i).
    { match goal with H : vspec m _ _ _ |- _ => inversion H; subst end.
      - exists (vupd m0 i (Some {| vc_parent := p; vc_vid := vid; vc_pcp := pcp; vc_dei := dei |})). split.
        + apply SCreated; auto; try (rewrite E; assumption). intros j c. rewrite E. match goal with X : forall j c, m j = Some c -> _ |- _ => apply X end.
        + intros j. match goal with X : forall _, m1' _ = _ |- _ => rewrite X end. unfold vupd. rewrite E. reflexivity.
      - exists m0. split; [apply SNotCreated|]. intros j. rewrite E. auto.
      - exists (vupd m0 i None). split.
        + apply SDeleted with c. rewrite E. auto.
        + intros j. match goal with X : forall _, m1' _ = _ |- _ => rewrite X end. unfold vupd. rewrite E. reflexivity.
      - exists m0. split; [apply SNotDeleted; rewrite E; auto|]. intros j. rewrite E. auto.
      - exists m0. split; [|intros j; rewrite E; auto]. rewrite <- E. apply SGet.
      - exists m0. split; [apply SSetup|]. intros j. rewrite E. auto. }
    destruct X as (m1'' & V & EE). apply VR_cons with (m1 := m1'') (m1' := m1'); auto.
Qed.

(** C28.  For every number of interfaces and every history of create / delete / get
    and driver set-up, each call answers as the finite map keyed by interface index
    does, and afterwards get reports exactly the final map. *)
Theorem vlan_table_is_finite_map : forall n os t rs, Forall vop_ok os -> vrun (vinit n) os = (t, rs) ->
  exists m, vspec_run vempty os rs m /\ forall i, vlan_get t i = m i.
Proof.
  assert (G : forall os t0 t rs, VInv t0 -> Forall vop_ok os -> vrun t0 os = (t, rs) ->
      exists m, vspec_run (vlan_get t0) os rs m /\ forall i, vlan_get t i = m i).
  { induction os as [|o os IH]; intros t0 t rs HI HO; cbn [vrun].
    - intros [= <- <-]. eexists. split; [constructor|reflexivity].
    - inversion HO; subst. destruct (step_spec t0 o HI ltac:(assumption)) as (H & m1 & SP & EQ). destruct (vstep t0 o) as [t1 r]. cbn [fst snd] in *.
      destruct (vrun t1 os) as [t2 rs2] eqn:E. intros [= <- <-]. destruct (IH _ _ _ H ltac:(assumption) E) as (m & R & Q).
      exists m. split; [|exact Q]. apply VR_cons with (m1 := m1) (m1' := vlan_get t1); auto. }
  intros n os t rs HO E. destruct (G os _ _ _ (init_vinv n) HO E) as (m & R & Q).
  destruct (spec_run_ext _ _ vempty _ _ R) as (m0 & R0 & Q0).
  - intros i. symmetry. apply get_none; [apply init_vinv|]. intros d N. apply nth_error_In in N. apply repeat_spec in N. subst. reflexivity.
  - exists m0. split; [exact R0|]. intros i. rewrite Q, Q0. reflexivity.
Qed.

(** C28.  In every reachable table: valid parameters, distinct (parent, VID), at most
    four live sub-interfaces. *)
Theorem vlan_table_wf : forall n os, Forall vop_ok os -> let t := fst (vrun (vinit n) os) in
  (forall i c, vlan_get t i = Some c -> (vc_parent c < length t)%nat /\ 0 <= vc_vid c <= 4094 /\ 0 <= vc_pcp c <= 7 /\ 0 <= vc_dei c <= 1) /\
  (forall i j c c', vlan_get t i = Some c -> vlan_get t j = Some c' -> vc_parent c = vc_parent c' -> vc_vid c = vc_vid c' -> i = j) /\
  at_most_four (vlan_get t).
Proof.
  intros n os HO t. assert (HI : VInv t) by (apply run_inv; [apply init_vinv|assumption]). clearbody t. pose proof HI as (H1 & H2 & H3). split; [|split].
  - intros i c G. apply get_some in G as (d & N & V); [|assumption]. eauto.
  - intros i j c c' G G' P I. apply get_some in G as (d & N & V); [|assumption]. apply get_some in G' as (d' & N' & V'); [|assumption]. eauto.
  - intros l ND L. apply Z.le_trans with (zlen (filter is_vlan t)); [|assumption].
    assert (X : forall t l, NoDup l -> (forall i, In i l -> exists d, nth_error t i = Some d /\ is_vlan d = true) -> (length l <= length (filter is_vlan t))%nat).
    { clear. induction t as [|d t IH]; intros l ND L.
      - destruct l as [|i l]; [cbn; lia|]. destruct (L i (or_introl eq_refl)) as (d & N & _). destruct i; discriminate.
      - set (l' := map pred (filter (fun i => negb (Nat.eqb i 0)) l)).
        assert (A : (length l' <= length (filter is_vlan t))%nat).
        { apply IH.
          - unfold l'. assert (D : NoDup (filter (fun i => negb (Nat.eqb i 0)) l)) by (apply NoDup_filter; exact ND).
            assert (P : forall i, In i (filter (fun i => negb (Nat.eqb i 0)) l) -> i <> 0%nat).
            { intros i I. apply filter_In in I as (_ & I). apply negb_true_iff, Nat.eqb_neq in I. exact I. }
            revert D P. generalize (filter (fun i => negb (Nat.eqb i 0)) l). clear. induction l as [|a l IH]; intros D P; cbn; [constructor|].
            inversion D; subst. constructor; [|apply IH; auto; intros i I; apply P; right; exact I].
            intros I. apply in_map_iff in I as (b & E & I). pose proof (P b (or_intror I)). pose proof (P a (or_introl eq_refl)). assert (b = a) by lia. subst. auto.
          - intros i I. unfold l' in I. apply in_map_iff in I as (j & E & I). apply filter_In in I as (I & Z). destruct j as [|j]; [discriminate|]. cbn in E. subst j.
            destruct (L _ I) as (e & N & V). exists e. auto. }
        assert (B : (length l <= length l' + (if is_vlan d then 1 else 0))%nat).
        { unfold l'. rewrite map_length. clear IH A l'. 
          assert (C : In 0%nat l -> is_vlan d = true). { intros I. destruct (L _ I) as (e & N & V). cbn in N. congruence. }
          clear L. induction l as [|a l IHl]; cbn [length filter]; [lia|]. inversion ND; subst. destruct (Nat.eqb_spec a 0); cbn [negb].
          - subst. rewrite (C (or_introl eq_refl)). assert (F : filter (fun i => negb (Nat.eqb i 0)) l = l).
            { assert (~ In 0%nat l) by assumption. clear - H. induction l as [|b l IH]; [reflexivity|]. cbn. destruct (Nat.eqb_spec b 0); [subst; exfalso; apply H; left; reflexivity|].
              cbn. f_equal. apply IH. intros I. apply H. right. exact I. }
            rewrite F. lia.
          - cbn [length]. assert (IL := IHl ltac:(assumption) ltac:(intros I; apply C; right; exact I)). lia. }
        cbn [filter]. destruct (is_vlan d); cbn [length]; lia. }
    assert (Y : (length l <= length (filter is_vlan t))%nat).
    { apply X; auto. intros i I. specialize (L i I). destruct (vlan_get t i) as [c|] eqn:G; [|congruence]. apply get_some in G as (d & N & V); [|assumption].
      exists d. split; [exact N|]. unfold is_vlan. rewrite V. reflexivity. }
    unfold zlen. lia.
Qed.

(** C28.  Create is refused for no other reason than the documented ones. *)
Theorem vlan_create_succeeds_iff : forall t p vid pcp dei,
  snd (vlan_create t p vid pcp dei) <> None <->
  exists pd, nth_error t p = Some pd /\ d_vlan pd = None /\ d_send pd = true /\ d_noneth pd = false /\ vid <= 4094 /\ pcp <= 7 /\ dei <= 1 /\
    (forall j d c, nth_error t j = Some d -> d_vlan d = Some c -> ~ (vc_parent c = p /\ vc_vid c = vid)) /\
    zlen (filter is_vlan t) < 4 /\
    exists i d, i <> p /\ nth_error t i = Some d /\ d_vlan d = None /\ d_send d = false /\ d_poll d = false.
Proof.
  intros t p vid pcp dei. unfold vlan_create. destruct (nth_error t p) as [pd|] eqn:EP.
  2:{ cbn. split; [congruence|]. intros (? & ? & _). discriminate. }
  split.
  - intros H. exists pd. split; [reflexivity|].
    destruct (is_vlan pd) eqn:E1; [cbn in H; congruence|]. destruct (d_send pd) eqn:E2; cbn [negb] in H; [|cbn in H; congruence]. destruct (d_noneth pd) eqn:E3; [cbn in H; congruence|].
    destruct (Z.ltb_spec 4094 vid); [cbn in H; congruence|]. destruct (Z.ltb_spec 7 pcp); [cbn in H; congruence|]. destruct (Z.ltb_spec 1 dei); [cbn in H; congruence|].
    destruct (existsb (vlan_dup p vid) t) eqn:E4; [cbn in H; congruence|]. destruct (Z.leb_spec 4 (zlen (filter is_vlan t))); [cbn in H; congruence|].
    destruct (find_slot p 0 t) as [i|] eqn:E5; [|cbn in H; congruence]. 
    split; [unfold is_vlan in E1; destruct (d_vlan pd); [discriminate|reflexivity]|]. repeat (split; [assumption || reflexivity|]).
    split; [intros j d c Nj V (P & I); assert (existsb (vlan_dup p vid) t = true) by (apply existsb_dup; eauto 8); congruence|]. split; [lia|].
    destruct (find_slot_spec _ _ _ _ E5) as (d & _ & N & S & NP). rewrite Nat.sub_0_r in N. exists i, d. split; [exact NP|]. split; [exact N|].
    split; [apply slot_free_novlan; exact S|]. unfold slot_free in S. destruct (d_send d), (d_poll d), (is_vlan d); try discriminate. auto.
  - intros (pd' & X & V & S & NE & A & B & C & ND & CT & i & d & NP & N & NV & NS & NPo). injection X as <-.
    unfold is_vlan at 1. rewrite V, S, NE. cbn [negb]. destruct (Z.ltb_spec 4094 vid); [lia|]. destruct (Z.ltb_spec 7 pcp); [lia|]. destruct (Z.ltb_spec 1 dei); [lia|].
    destruct (existsb (vlan_dup p vid) t) eqn:E4. { apply existsb_dup in E4 as (j & e & c & Nj & Vj & P & I). exfalso. apply (ND _ _ _ Nj Vj). auto. }
    destruct (Z.leb_spec 4 (zlen (filter is_vlan t))); [lia|]. destruct (find_slot p 0 t) as [k|] eqn:E5; [cbn; congruence|].
    exfalso. apply NP. assert (F := find_slot_none _ _ _ E5 i d N). rewrite Nat.add_0_r in F. apply F. unfold slot_free, is_vlan. rewrite NV, NS, NPo. reflexivity.
Qed.

(** * Tagging *)
Lemma land_ones_small a n : 0 <= n -> 0 <= a < 2 ^ n -> Z.land a (Z.ones n) = a.
Proof. intros N A. rewrite Z.land_ones by lia. apply Z.mod_small. exact A. Qed.
Lemma lor_shift_add a b n : 0 <= n -> 0 <= b < 2 ^ n -> Z.lor (Z.shiftl a n) b = a * 2 ^ n + b.
Proof.
  intros Hn Hb. rewrite Z.shiftl_mul_pow2 by lia. apply lor_add with n; [lia|lia|]. apply Z.mod_mul. apply Z.pow_nonzero; lia.
Qed.
(** The tag control information is PCP, DEI, VID in that order. *)
Lemma vlan_tci_value c : 0 <= vc_vid c <= 4094 -> 0 <= vc_pcp c <= 7 -> 0 <= vc_dei c <= 1 ->
  vlan_tci c = vc_pcp c * 8192 + vc_dei c * 4096 + vc_vid c.
Proof.
  intros A B C. unfold vlan_tci. change 7 with (Z.ones 3). change 1 with (Z.ones 1). change 4095 with (Z.ones 12).
  rewrite !land_ones_small by (cbn; lia). rewrite <- Z.lor_assoc, (lor_shift_add (vc_dei c) (vc_vid c) 12) by (cbn; lia).
  rewrite lor_shift_add by (cbn; lia). unfold u16. rewrite Z.mod_small by (cbn; lia). cbn; lia.
Qed.
Lemma rd16_be16 v : 0 <= v < 65536 -> rd16 (be16 v) 0 = v.
Proof. intros H. unfold rd16, be16, zget. cbn [Z.to_nat nth]. change (Z.to_nat (0 + 1)) with 1%nat. cbn [nth]. rewrite Z.shiftr_div_pow2 by lia. change (2 ^ 8) with 256. lia. Qed.
Lemma land_vid v : 0 <= v -> Z.land v 4095 = v mod 4096.
Proof. intros. change 4095 with (Z.ones 12). rewrite Z.land_ones by lia. reflexivity. Qed.

(** The tagged frame of 802.1Q: MAC addresses, 0x8100, TCI, rest. *)
Definition tagged (c : vcfg) (f : list Z) : list Z :=
  firstn 12 f ++ [129; 0] ++ be16 (vc_pcp c * 8192 + vc_dei c * 4096 + vc_vid c) ++ skipn 12 f.

Lemma staging_ok f (tci : Z) : 12 <= zlen f -> zlen f + 4 <= 1540 ->
  (do m0 <- mread f 0 12;
   do st <- mwrite (repeat 0 1540) 0 m0;
   do st <- mwrite st 12 (be16 33024);
   do st <- mwrite st 14 (be16 tci);
   do m1 <- mread f 12 (zlen f - 12);
   do st <- mwrite st 16 m1;
   mread st 0 (zlen f + 4)) = Some (firstn 12 f ++ [129; 0] ++ be16 tci ++ skipn 12 f).
Proof.
  intros L1 L2. destruct (split_at f 12 ltac:(lia)) as (a & b & -> & La & Lb). rewrite zlen_app in *.
  assert (LA : length a = 12%nat) by (unfold zlen in La; lia).
  replace (firstn 12 (a ++ b)) with a by (rewrite <- LA, firstn_app, firstn_all, Nat.sub_diag; cbn; rewrite app_nil_r; reflexivity).
  replace (skipn 12 (a ++ b)) with b by (rewrite <- LA, skipn_app, skipn_all, Nat.sub_diag; reflexivity).
  rewrite (mread_pre a b 12 La). cbn [obind].
  assert (N : (1540 = 12 + (2 + (2 + (length b + (1524 - length b)))))%nat) by (unfold zlen in *; lia).
  assert (SP : repeat 0 1540 = repeat 0 12 ++ repeat 0 2 ++ repeat 0 2 ++ repeat 0 (length b) ++ repeat 0 (1524 - length b)) by (rewrite N at 1; rewrite !repeat_app; reflexivity).
  rewrite SP. clear SP N.
  rewrite (mwrite_eq _ [] (repeat 0 12) (repeat 0 2 ++ repeat 0 2 ++ repeat 0 (length b) ++ repeat 0 (1524 - length b)) a 0
    (a ++ repeat 0 2 ++ repeat 0 2 ++ repeat 0 (length b) ++ repeat 0 (1524 - length b)));
    [|reflexivity|reflexivity|rewrite zlen_repeat; lia|reflexivity]. cbn [obind].
  rewrite (mwrite_eq _ a (repeat 0 2) (repeat 0 2 ++ repeat 0 (length b) ++ repeat 0 (1524 - length b)) (be16 33024) 12
    (a ++ be16 33024 ++ repeat 0 2 ++ repeat 0 (length b) ++ repeat 0 (1524 - length b)));
    [|reflexivity|lia|reflexivity|reflexivity]. cbn [obind].
  rewrite (mwrite_eq _ (a ++ be16 33024) (repeat 0 2) (repeat 0 (length b) ++ repeat 0 (1524 - length b)) (be16 tci) 14
    (a ++ be16 33024 ++ be16 tci ++ repeat 0 (length b) ++ repeat 0 (1524 - length b)));
    [|rewrite <- !app_assoc; reflexivity|rewrite zlen_app; change (zlen (be16 33024)) with 2; lia|reflexivity|rewrite <- !app_assoc; reflexivity]. cbn [obind].
  rewrite (mread_suf a b 12) by lia. cbn [obind].
  rewrite (mwrite_eq _ (a ++ be16 33024 ++ be16 tci) (repeat 0 (length b)) (repeat 0 (1524 - length b)) b 16
    (a ++ be16 33024 ++ be16 tci ++ b ++ repeat 0 (1524 - length b)));
    [|rewrite <- !app_assoc; reflexivity|rewrite !zlen_app; change (zlen (be16 33024)) with 2; change (zlen (be16 tci)) with 2; lia|rewrite zlen_repeat; reflexivity|rewrite <- !app_assoc; reflexivity]. cbn [obind].
  replace (a ++ be16 33024 ++ be16 tci ++ b ++ repeat 0 (1524 - length b)) with ((a ++ be16 33024 ++ be16 tci ++ b) ++ repeat 0 (1524 - length b)) by (rewrite <- !app_assoc; reflexivity).
  rewrite mread_pre; [reflexivity|]. rewrite !zlen_app. change (zlen (be16 33024)) with 2. change (zlen (be16 tci)) with 2. lia.
Qed.
Lemma find_vlan_spec p vid t : forall k i, find_vlan p vid k t = Some i ->
  exists d c, (k <= i)%nat /\ nth_error t (i - k) = Some d /\ d_vlan d = Some c /\ vc_parent c = p /\ vc_vid c = vid.
Proof.
  induction t as [|d t IH]; intros k i; cbn [find_vlan]; [discriminate|].
  destruct (vlan_dup p vid d) eqn:E.
  - intros [= <-]. unfold vlan_dup in E. destruct (d_vlan d) as [c|] eqn:V; [|discriminate]. apply andb_true_iff in E as (A & B). apply Nat.eqb_eq in A.
    exists d, c. rewrite Nat.sub_diag. cbn. repeat split; auto. lia.
  - intros F. destruct (IH _ _ F) as (d' & c & L & N & R). exists d', c. split; [lia|]. split; [|exact R].
    replace (i - k)%nat with (S (i - S k)) by lia. exact N.
Qed.
Lemma find_vlan_none p vid t : forall k, find_vlan p vid k t = None -> forall j d c, nth_error t j = Some d -> d_vlan d = Some c -> vc_parent c = p -> vc_vid c = vid -> False.
Proof.
  induction t as [|d t IH]; intros k H j e c; cbn [find_vlan] in H; [destruct j; discriminate|].
  destruct (vlan_dup p vid d) eqn:E; [discriminate|]. destruct j as [|j]; cbn [nth_error].
  - intros [= ->] V P I. unfold vlan_dup in E. rewrite V, P, I, Nat.eqb_refl, Z.eqb_refl in E. discriminate.
  - intros N. eauto.
Qed.
Lemma find_vlan_exact t i d c : VInv t -> nth_error t i = Some d -> d_vlan d = Some c -> find_vlan (vc_parent c) (vc_vid c) 0 t = Some i.
Proof.
  intros (_ & H2 & _) N V. destruct (find_vlan (vc_parent c) (vc_vid c) 0 t) as [j|] eqn:E.
  - destruct (find_vlan_spec _ _ _ _ _ E) as (d' & c' & _ & N' & V' & P & I). rewrite Nat.sub_0_r in N'. f_equal. apply (H2 _ _ _ _ _ _ N' N V' V); auto.
  - exfalso. eapply find_vlan_none; eauto.
Qed.
Lemma chain_mtu t : forall k i ch, dev_chain k t i = Some ch -> ll_frame_mtu ch <= 1536.
Proof.
  intros k i ch _. induction ch as [m|ch IH]; cbn [ll_frame_mtu].
  - destruct (m =? 0); [lia|]. destruct (Z.ltb_spec 1536 m); cbn; [lia|]. destruct (m <? 64); lia.
  - destruct (4 <? ll_frame_mtu ch); lia.
Qed.

Lemma demux_tagged t p pd tci a b j : nth_error t p = Some pd -> d_noneth pd = false -> zlen a = 12 -> 2 <= zlen b -> 0 <= tci < 65536 ->
  find_vlan p (tci mod 4096) 0 t = Some j ->
  vlan_demux t p (a ++ [129; 0] ++ be16 tci ++ b) = Some (Some (j, a ++ b)).
Proof.
  intros EP NE La Lb HT F. unfold vlan_demux. rewrite EP, NE. rewrite !zlen_app, La. change (zlen [129; 0]) with 2. change (zlen (be16 tci)) with 2.
  destruct (Z.ltb_spec (12 + (2 + (2 + zlen b))) 14); [lia|].
  pose proof (mread_app a [129; 0] (be16 tci ++ b)) as R1. rewrite La in R1. change (zlen [129; 0]) with 2 in R1. rewrite R1. clear R1. cbn [obind].
  change (rd16 [129; 0] 0) with 33024. change (33024 =? 33024) with true. cbv iota.
  destruct (Z.ltb_spec (12 + (2 + (2 + zlen b))) 18); [lia|].
  pose proof (mread_app (a ++ [129; 0]) (be16 tci) b) as R2. rewrite zlen_app, La in R2. change (12 + zlen [129; 0]) with 14 in R2. change (zlen (be16 tci)) with 2 in R2. rewrite <- app_assoc in R2.
  rewrite R2. clear R2. cbn [obind]. rewrite rd16_be16 by assumption. rewrite land_vid by lia. rewrite F.
  rewrite (mread_pre a) by assumption. cbn [obind].
  destruct (split_at a 4 ltac:(lia)) as (a1 & a2 & -> & L1 & L2). rewrite zlen_app in La.
  rewrite (mwrite_eq _ a1 (a2 ++ [129; 0] ++ be16 tci) b (a1 ++ a2) 4 (a1 ++ a1 ++ a2 ++ b));
    [|rewrite <- !app_assoc; reflexivity|lia|rewrite !zlen_app; change (zlen [129; 0]) with 2; change (zlen (be16 tci)) with 2; lia|rewrite <- !app_assoc; reflexivity].
  rewrite <- ?app_assoc. cbn [obind]. rewrite (mread_suf a1 (a1 ++ a2 ++ b) 4); [reflexivity|exact L1|]. rewrite !zlen_app. lia.
Qed.

(** C28.  What a sub-interface transmits leaves on its parent as the 802.1Q frame of
    its configuration, four bytes longer, within the parent's frame size; and the same
    stack receiving it there hands the original frame to that sub-interface. *)
Theorem vlan_tag_round_trip : forall n os i c d pd f p w, Forall vop_ok os -> let t := fst (vrun (vinit n) os) in
  vlan_get t i = Some c -> nth_error t i = Some d -> d_noneth d = false -> nth_error t (vc_parent c) = Some pd -> d_noneth pd = false ->
  ll_send_frame t i f = Some (Tx p w) ->
  p = vc_parent c /\ w = tagged c f /\ zlen w = zlen f + 4 /\ zlen w <= 1536 /\ vlan_demux t p w = Some (Some (i, f)).
Proof.
  intros n os i c d pd f p w HO t G N NE NP NEP S. assert (HI : VInv t) by (apply run_inv; [apply init_vinv|assumption]). clearbody t.
  assert (V : d_vlan d = Some c). { apply get_some in G as (d' & X & Y); [|assumption]. congruence. }
  destruct HI as (H1 & H2 & H3). destruct (H1 _ _ _ N V) as (PL & RV & RP & RD).
  unfold ll_send_frame in S. rewrite N in S. unfold is_vlan in S. rewrite V, NE in S. cbn [negb andb] in S.
  destruct (dev_chain (length t) t i) as [ch|] eqn:EC; [|discriminate]. cbn [obind] in S. destruct (Z.ltb_spec (ll_frame_mtu ch) (zlen f)); [discriminate|].
  destruct (Z.ltb_spec (zlen f) 14); [discriminate|]. rewrite NP in S. destruct (negb (d_send pd)); [discriminate|].
  destruct (dev_chain (length t) t (vc_parent c)) as [pch|] eqn:EPC; [|discriminate]. cbn [obind] in S. destruct (Z.ltb_spec (ll_frame_mtu pch) (zlen f + 4)); [discriminate|].
  pose proof (chain_mtu _ _ _ _ EPC) as CM.
  pose proof (staging_ok f (vlan_tci c) ltac:(lia) ltac:(lia)) as ST.
  assert (S' : w = firstn 12 f ++ [129; 0] ++ be16 (vlan_tci c) ++ skipn 12 f /\ p = vc_parent c).
  { destruct (mread f 0 12) as [m0|]; [|discriminate]. cbn [obind] in S, ST. destruct (mwrite (repeat 0 1540) 0 m0) as [s1|]; [|discriminate]. cbn [obind] in S, ST.
    destruct (mwrite s1 12 (be16 33024)) as [s2|]; [|discriminate]. cbn [obind] in S, ST. destruct (mwrite s2 14 (be16 (vlan_tci c))) as [s3|]; [|discriminate]. cbn [obind] in S, ST.
    destruct (mread f 12 (zlen f - 12)) as [m1|]; [|discriminate]. cbn [obind] in S, ST. destruct (mwrite s3 16 m1) as [s4|]; [|discriminate]. cbn [obind] in S, ST.
    rewrite ST in S. cbn [obind] in S. split; congruence. }
  destruct S' as (-> & ->). rewrite (vlan_tci_value c RV RP RD) in *.
  assert (LT : 0 <= vc_pcp c * 8192 + vc_dei c * 4096 + vc_vid c < 65536) by lia.
  assert (LF : zlen (firstn 12 f) = 12) by (unfold zlen in *; rewrite firstn_length; lia).
  assert (LS : zlen (skipn 12 f) = zlen f - 12) by (unfold zlen in *; rewrite skipn_length; lia).
  split; [reflexivity|]. split; [reflexivity|]. 
  assert (LW : zlen (firstn 12 f ++ [129; 0] ++ be16 (vc_pcp c * 8192 + vc_dei c * 4096 + vc_vid c) ++ skipn 12 f) = zlen f + 4).
  { rewrite !zlen_app, LF, LS. change (zlen [129; 0]) with 2. change (zlen (be16 (vc_pcp c * 8192 + vc_dei c * 4096 + vc_vid c))) with 2. lia. }
  split; [exact LW|]. split; [lia|].
  rewrite <- (firstn_skipn 12 f) at 3. eapply demux_tagged; eauto; [lia|].
  replace ((vc_pcp c * 8192 + vc_dei c * 4096 + vc_vid c) mod 4096) with (vc_vid c).
  - eapply find_vlan_exact; eauto. split; [|split]; auto.
  - replace (vc_pcp c * 8192 + vc_dei c * 4096 + vc_vid c) with (vc_vid c + (vc_pcp c * 2 + vc_dei c) * 4096) by lia. rewrite Z.mod_add by lia. symmetry. apply Z.mod_small. lia.
Qed.

(** C28.  And a sub-interface of a working Ethernet parent does transmit every frame of
    at least a header that fits the parent with its tag; nothing larger. *)
Theorem vlan_send_accepts_iff : forall n os i c d pd f, Forall vop_ok os -> let t := fst (vrun (vinit n) os) in
  vlan_get t i = Some c -> nth_error t i = Some d -> d_noneth d = false ->
  nth_error t (vc_parent c) = Some pd -> d_vlan pd = None -> d_send pd = true ->
  (exists w, ll_send_frame t i f = Some (Tx (vc_parent c) w)) <-> 14 <= zlen f /\ zlen f + 4 <= ll_frame_mtu (Phys (d_mtu pd)).
Proof.
  intros n os i c d pd f HO t G N NE NP NV S. assert (HI : VInv t) by (apply run_inv; [apply init_vinv|assumption]). clearbody t.
  assert (V : d_vlan d = Some c). { apply get_some in G as (d' & X & Y); [|assumption]. congruence. }
  assert (NI : i <> vc_parent c) by (intros E; rewrite <- E in NP; congruence).
  assert (L1 : (i < length t)%nat) by (apply nth_error_Some; congruence). assert (L2 : (vc_parent c < length t)%nat) by (apply nth_error_Some; congruence).
  assert (C1 : dev_chain (length t) t (vc_parent c) = Some (Phys (d_mtu pd))).
  { destruct (length t) as [|k]; [lia|]. cbn [dev_chain]. rewrite NP, NV. reflexivity. }
  assert (C2 : dev_chain (length t) t i = Some (VlanOn (Phys (d_mtu pd)))).
  { destruct (length t) as [|[|k]]; [lia|lia|]. cbn [dev_chain]. rewrite N, V, NP, NV. reflexivity. }
  pose proof (chain_mtu _ _ _ _ C1) as CM.
  assert (CL : 64 <= ll_frame_mtu (Phys (d_mtu pd))).
  { cbn [ll_frame_mtu]. destruct (d_mtu pd =? 0); [lia|]. destruct (Z.ltb_spec 1536 (d_mtu pd)); cbn; [lia|]. destruct (Z.ltb_spec (d_mtu pd) 64); lia. }
  assert (CV : ll_frame_mtu (VlanOn (Phys (d_mtu pd))) = ll_frame_mtu (Phys (d_mtu pd)) - 4).
  { cbn [ll_frame_mtu] in *. match goal with |- context[4 <? ?x] => destruct (Z.ltb_spec 4 x) end; lia. }
  unfold ll_send_frame. rewrite N. unfold is_vlan. rewrite V, NE. cbn [negb andb]. rewrite C2, C1, NP, S. cbn [obind negb]. rewrite CV. split.
  - intros (w & E). destruct (Z.ltb_spec (ll_frame_mtu (Phys (d_mtu pd)) - 4) (zlen f)); [discriminate|].
    destruct (Z.ltb_spec (zlen f) 14); [discriminate|]. lia.
  - intros (A & B). destruct (Z.ltb_spec (ll_frame_mtu (Phys (d_mtu pd)) - 4) (zlen f)); [lia|].
    destruct (Z.ltb_spec (zlen f) 14); [lia|]. destruct (Z.ltb_spec (ll_frame_mtu (Phys (d_mtu pd))) (zlen f + 4)); [lia|].
    pose proof (staging_ok f (vlan_tci c) ltac:(lia) ltac:(lia)) as ST.
    destruct (mread f 0 12) as [m0|]; [|discriminate]. cbn [obind] in *. destruct (mwrite (repeat 0 1540) 0 m0) as [s1|]; [|discriminate]. cbn [obind] in *.
    destruct (mwrite s1 12 (be16 33024)) as [s2|]; [|discriminate]. cbn [obind] in *. destruct (mwrite s2 14 (be16 (vlan_tci c))) as [s3|]; [|discriminate]. cbn [obind] in *.
    destruct (mread f 12 (zlen f - 12)) as [m1|]; [|discriminate]. cbn [obind] in *. destruct (mwrite s3 16 m1) as [s4|]; [|discriminate]. cbn [obind] in *.
    rewrite ST. cbn [obind]. eauto.
Qed.

(** C28.  Isolation: a received frame is handed to a sub-interface only if it carried a
    tag with that sub-interface's VID on its parent link, and then exactly the tag is
    removed; without an 802.1Q tag it stays on the interface it came from; a tag with
    no matching sub-interface is dropped.  No access leaves the frame. *)
Theorem vlan_demux_exact : forall t i d f, nth_error t i = Some d -> d_noneth d = false -> Forall byte f ->
  exists r, vlan_demux t i f = Some r /\
  match r with
  | None => zlen f < 14 \/ (zget f 12 = 129 /\ zget f 13 = 0 /\
      (zlen f < 18 \/ forall j e c, nth_error t j = Some e -> d_vlan e = Some c -> vc_parent c = i -> vc_vid c <> (256 * zget f 14 + zget f 15) mod 4096))
  | Some (j, g) =>
      (j = i /\ g = f /\ 14 <= zlen f /\ ~ (zget f 12 = 129 /\ zget f 13 = 0)) \/
      (exists e c a tci b, nth_error t j = Some e /\ d_vlan e = Some c /\ vc_parent c = i /\ vc_vid c = tci mod 4096 /\ 0 <= tci < 65536 /\
         zlen a = 12 /\ f = a ++ [129; 0] ++ be16 tci ++ b /\ g = a ++ b)
  end.
Proof.
  intros t i d f N NE BF. unfold vlan_demux. rewrite N, NE. destruct (Z.ltb_spec (zlen f) 14) as [L|L].
  { exists None. split; [reflexivity|]. left. exact L. }
  destruct (split_at f 12 ltac:(lia)) as (a & r & -> & La & Lr). rewrite zlen_app in *.
  destruct r as [|t0 [|t1 r]]; [change (zlen (@nil Z)) with 0 in *; lia|change (zlen [t0]) with 1 in *; lia|]. rewrite !zlen_cons in *.
  pose proof (mread_app a [t0; t1] r) as R. rewrite La in R. change (zlen [t0; t1]) with 2 in R. cbn [app] in R. rewrite R. cbn [obind]. clear R.
  assert (LA : length a = 12%nat) by (unfold zlen in La; lia).
  assert (G12 : zget (a ++ t0 :: t1 :: r) 12 = t0) by (unfold zget; rewrite app_nth2 by (change (Z.to_nat 12) with 12%nat; lia); rewrite LA; reflexivity).
  assert (G13 : zget (a ++ t0 :: t1 :: r) 13 = t1) by (unfold zget; rewrite app_nth2 by (change (Z.to_nat 13) with 13%nat; lia); rewrite LA; reflexivity).
  rewrite G12, G13. assert (RD : rd16 [t0; t1] 0 = 256 * t0 + t1) by reflexivity. rewrite RD.
  apply Forall_app in BF as (BA & BR). inversion BR as [|? ? B0 BR1]; subst. inversion BR1 as [|? ? B1 BR2]; subst. unfold byte in B0, B1.
  destruct (Z.eqb_spec (256 * t0 + t1) 33024).
  - assert (t0 = 129 /\ t1 = 0) as (-> & ->) by lia.
    destruct (Z.ltb_spec (zlen a + (1 + (1 + zlen r))) 18).
    { exists None. split; [reflexivity|]. right. auto. }
    destruct r as [|c0 [|c1 r]]; [change (zlen (@nil Z)) with 0 in *; lia|change (zlen [c0]) with 1 in *; lia|].
    inversion BR2 as [|? ? B2 BR3]; subst. inversion BR3 as [|? ? B3 BR4]; subst. unfold byte in B2, B3.
    assert (EF : a ++ 129 :: 0 :: c0 :: c1 :: r = a ++ [129; 0] ++ be16 (256 * c0 + c1) ++ r).
    { unfold be16. rewrite Z.shiftr_div_pow2 by lia. change (2 ^ 8) with 256. replace ((256 * c0 + c1) / 256 mod 256) with c0 by lia. replace ((256 * c0 + c1) mod 256) with c1 by lia. reflexivity. }
    assert (G14 : zget (a ++ 129 :: 0 :: c0 :: c1 :: r) 14 = c0) by (unfold zget; rewrite app_nth2 by (change (Z.to_nat 14) with 14%nat; lia); rewrite LA; reflexivity).
    assert (G15 : zget (a ++ 129 :: 0 :: c0 :: c1 :: r) 15 = c1) by (unfold zget; rewrite app_nth2 by (change (Z.to_nat 15) with 15%nat; lia); rewrite LA; reflexivity).
    rewrite G14, G15.
    destruct (find_vlan i ((256 * c0 + c1) mod 4096) 0 t) as [j|] eqn:F.
    + exists (Some (j, a ++ r)). split.
      * pose proof (demux_tagged t i d (256 * c0 + c1) a r j N NE La ltac:(rewrite !zlen_cons in *; lia) ltac:(lia) F) as D. unfold vlan_demux in D. rewrite N, NE in D.
        rewrite <- EF in D. rewrite zlen_app, !zlen_cons in D. rewrite !zlen_cons. 
        destruct (Z.ltb_spec (zlen a + (1 + (1 + (1 + (1 + zlen r))))) 14); [rewrite !zlen_cons in *; lia|].
        pose proof (mread_app a [129; 0] (c0 :: c1 :: r)) as R. rewrite La in R. change (zlen [129; 0]) with 2 in R. cbn [app] in R. rewrite R in D. cbn [obind] in D. clear R.
        change (rd16 [129; 0] 0 =? 33024) with true in D. cbv iota in D.
        destruct (Z.ltb_spec (zlen a + (1 + (1 + (1 + (1 + zlen r))))) 18); [rewrite !zlen_cons in *; lia|]. exact D.
      * right. destruct (find_vlan_spec _ _ _ _ _ F) as (e' & c & _ & Nj & Vj & P & I). rewrite Nat.sub_0_r in Nj. exists e', c, a, (256 * c0 + c1), r.
        split; [exact Nj|]. split; [exact Vj|]. split; [exact P|]. split; [exact I|]. split; [lia|]. split; [exact La|]. split; [exact EF|reflexivity].
    + exists None. pose proof (mread_app (a ++ [129; 0]) [c0; c1] r) as R. rewrite zlen_app, La in R. change (12 + zlen [129; 0]) with 14 in R. change (zlen [c0; c1]) with 2 in R.
      rewrite <- app_assoc in R. cbn [app] in R. rewrite R. cbn [obind]. clear R. change (rd16 [c0; c1] 0) with (256 * c0 + c1). rewrite land_vid by lia. rewrite F. split; [reflexivity|].
      right. split; [reflexivity|]. split; [reflexivity|]. right. intros j e' c Nj Vj P I. eapply find_vlan_none; eauto.
  - exists (Some (i, a ++ t0 :: t1 :: r)). split; [reflexivity|]. left. split; [reflexivity|]. split; [reflexivity|]. split; [lia|]. intros (-> & ->). lia.
Qed.

(** C28.  The generated name fits ifname[16] with its terminator, and two VLANs of one
    parent with different VIDs never get the same name. *)
Fixpoint dec_value (s : list Z) (acc : Z) : Z := match s with [] => acc | c :: s => dec_value s (acc * 10 + (c - 48)) end.
Lemma dec_value_app a b acc : dec_value (a ++ b) acc = dec_value b (dec_value a acc).
Proof. revert acc; induction a; intros; cbn; auto. Qed.
Lemma digits_app fuel : forall v acc, dec_digits fuel v acc = dec_digits fuel v [] ++ acc.
Proof.
  induction fuel; intros v acc; cbn [dec_digits]; [reflexivity|]. destruct (0 <? v); [|reflexivity].
  rewrite IHfuel, (IHfuel _ [48 + v mod 10]), <- app_assoc. reflexivity.
Qed.
Lemma digits_value fuel : forall v, 0 <= v < 10 ^ Z.of_nat fuel -> dec_value (dec_digits fuel v []) 0 = v.
Proof.
  induction fuel; intros v H; cbn [dec_digits]; [cbn in H; cbn; lia|]. destruct (Z.ltb_spec 0 v); [|cbn; lia].
  rewrite digits_app, dec_value_app. rewrite IHfuel; [cbn [dec_value]; lia|]. rewrite Nat2Z.inj_succ, Z.pow_succ_r in H by lia. lia.
Qed.
Lemma digits_len fuel : forall v k, 0 <= v < 10 ^ Z.of_nat k -> (length (dec_digits fuel v []) <= k)%nat.
Proof.
  induction fuel; intros v k H; cbn [dec_digits]; [cbn; lia|]. destruct (Z.ltb_spec 0 v); [|cbn; lia].
  rewrite digits_app, app_length. cbn [length]. destruct k as [|k]; [cbn in H; lia|]. rewrite Nat2Z.inj_succ, Z.pow_succ_r in H by lia.
  specialize (IHfuel (v / 10) k ltac:(lia)). lia.
Qed.
Lemma prefix_len n s : (length (name_prefix n s) <= n)%nat.
Proof. revert s; induction n; intros [|c s]; cbn; try lia. destruct (c =? 0); cbn; [lia|]. specialize (IHn s). lia. Qed.
Definition vid_digits (vid : Z) : list Z := if vid =? 0 then [48] else dec_digits 6 vid [].
Lemma vid_digits_value vid : 0 <= vid <= 4094 -> dec_value (vid_digits vid) 0 = vid.
Proof. intros H. unfold vid_digits. destruct (Z.eqb_spec vid 0); [subst; reflexivity|]. apply digits_value. cbn; lia. Qed.
Theorem vlan_names : forall parent vid vid', 0 <= vid <= 4094 -> 0 <= vid' <= 4094 ->
  zlen (vlan_ifname parent vid) + 1 <= 16 /\ (vlan_ifname parent vid = vlan_ifname parent vid' -> vid = vid').
Proof.
  intros parent vid vid' H H'. split.
  - unfold vlan_ifname. rewrite !zlen_app. change (zlen [46]) with 1. pose proof (prefix_len 9 parent).
    assert (zlen (vid_digits vid) <= 4). { unfold vid_digits. destruct (vid =? 0); [cbn; lia|]. pose proof (digits_len 6 vid 4 ltac:(cbn; lia)). unfold zlen. lia. }
    fold (vid_digits vid). unfold zlen in *. lia.
  - unfold vlan_ifname. intros E. apply app_inv_head in E. apply app_inv_head in E. fold (vid_digits vid) in E. fold (vid_digits vid') in E.
    rewrite <- (vid_digits_value vid), <- (vid_digits_value vid') by assumption. rewrite E. reflexivity.
Qed.

Print Assumptions vlan_table_is_finite_map.
Print Assumptions vlan_table_wf.
Print Assumptions vlan_create_succeeds_iff.
Print Assumptions vlan_tag_round_trip.
Print Assumptions vlan_send_accepts_iff.
Print Assumptions vlan_demux_exact.
Print Assumptions vlan_names.

(** Non-vacuity: two VLANs on "eth0", a duplicate refused, a round trip. *)
Definition ex_ops : list vop := [VSetup 0 true true false 1500 [2;0;0;0;0;1] [101;116;104;48]; VCreate 0 100 3 1; VCreate 0 100 0 0; VCreate 0 7 0 0; VCreate 1 7 0 0; VGet 1; VDelete 1; VGet 1; VCreate 0 4095 0 0; VCreate 0 101 5 0].
Example ex_vlan_run : snd (vrun (vinit 3) ex_ops) =
  [RSetup; RCreate (Some 1%nat); RCreate None; RCreate (Some 2%nat); RCreate None; RGet (Some {| vc_parent := 0; vc_vid := 100; vc_pcp := 3; vc_dei := 1 |});
   RDelete true; RGet None; RCreate None; RCreate (Some 1%nat)].
Proof. vm_compute. reflexivity. Qed.
Definition ex_fr := [1;2;3;4;5;6;7;8;9;10;11;12;8;0;69].
Example ex_vlan_tag : let t := fst (vrun (vinit 3) ex_ops) in
  ll_send_frame t 1 ex_fr = Some (Tx 0 [1;2;3;4;5;6;7;8;9;10;11;12;129;0;160;101;8;0;69]) /\
  vlan_demux t 0 [1;2;3;4;5;6;7;8;9;10;11;12;129;0;160;101;8;0;69] = Some (Some (1%nat, ex_fr)) /\
  map d_name t = [[101;116;104;48]; [101;116;104;48;46;49;48;49]; [101;116;104;48;46;55]].
Proof. vm_compute. auto. Qed.
