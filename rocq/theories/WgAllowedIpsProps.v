(** C31: wolfGuard cryptokey routing is longest-prefix match over the live prefixes. *)
From Coq Require Import Permutation.
From Verif Require Import Base Bits ByteOrder WgAllowedIps.
Local Ltac Zify.zify_post_hook ::= idtac.

(** ** Specification: a finite map from prefixes to peers.

    A prefix is (network number, length); the API takes the length as a uint8_t
    and treats anything above 32 as a host route.  Addresses here are ordinary
    numbers (192.168.1.1 = 3232235777). *)
Definition plen (c : Z) : Z := Z.min c 32.
Definition network (a c : Z) : Z := a / 2 ^ (32 - plen c).
Definition rmap := list (Z * Z * Z). (* network, length, peer *)
Definition same_prefix (n c : Z) (e : Z * Z * Z) : bool := (fst (fst e) =? n) && (snd (fst e) =? c).

Inductive aop := AInsert (addr cidr peer : Z) | ARemove (peer : Z).
Definition aop_wf (o : aop) : Prop :=
  match o with AInsert a c p => 0 <= a < 2 ^ 32 /\ 0 <= c < 256 /\ 0 <= p < 256 | ARemove p => 0 <= p < 256 end.

Definition spec_op (m : rmap) (o : aop) : rmap * bool :=
  match o with
  | AInsert a c p =>
      if existsb (same_prefix (network a c) c) m
      then (map (fun e => if same_prefix (network a c) c e then (network a c, c, p) else e) m, true)
      else if zlen m <? 32 then ((network a c, c, p) :: m, true) else (m, false)
  | ARemove p => (filter (fun e => negb (snd e =? p)) m, true)
  end.
Fixpoint spec_run (m : rmap) (ops : list aop) : rmap * list bool :=
  match ops with
  | [] => (m, [])
  | o :: ops' => let '(m1, r) := spec_op m o in let '(m2, rs) := spec_run m1 ops' in (m2, r :: rs)
  end.

(** The peer a lookup must return: the one of the longest live prefix holding the address. *)
Definition lpm (m : rmap) (a : Z) (r : Z) : Prop :=
  (r = -1 /\ forall n c p, In (n, c, p) m -> network a c <> n) \/
  (exists n c, In (n, c, r) m /\ network a c = n /\
     forall n' c' p', In (n', c', p') m -> network a c' = n' -> c' < c \/ (n', c', p') = (n, c, r)).

(** ** The model run on the same operations; addresses enter as network-order words. *)
Definition model_op (l : list aip) (o : aop) : list aip * bool :=
  match o with
  | AInsert a c p => aips_insert l (ee32 a) c p
  | ARemove p => (aips_remove l p, true)
  end.
Fixpoint model_run (l : list aip) (ops : list aop) : list aip * list bool :=
  match ops with
  | [] => (l, [])
  | o :: ops' => let '(l1, r) := model_op l o in let '(l2, rs) := model_run l1 ops' in (l2, r :: rs)
  end.

(** ** Proof *)
Lemma plen_pow c : 0 <= c -> 0 < 2 ^ (32 - plen c) /\ 0 <= 32 - plen c <= 32.
Proof. unfold plen. intros. split; [apply Z.pow_pos_nonneg|]; lia. Qed.

Lemma lnot_mask k : 0 <= k <= 32 -> u32 (Z.lnot (2 ^ k - 1)) = (2 ^ 32 - 2 ^ k) mod 2 ^ 32.
Proof.
  intros Hk. unfold Z.lnot, u32, Z.pred. change 4294967296 with (2 ^ 32).
  replace (- (2 ^ k - 1) + -1) with (2 ^ 32 - 2 ^ k + (-1) * 2 ^ 32) by lia. rewrite Z.mod_add by lia. reflexivity.
Qed.

Lemma mask_land a c : 0 <= a < 2 ^ 32 -> 0 <= c ->
  Z.land (ee32 a) (cidr_to_mask c) = ee32 (network a c * 2 ^ (32 - plen c)).
Proof.
  intros Ha Hc. unfold cidr_to_mask, network. destruct (Z.eqb_spec c 0) as [-> |N0].
  - rewrite Z.land_0_r. change (2 ^ (32 - plen 0)) with (2 ^ 32). rewrite Z.div_small by lia. reflexivity.
  - destruct (Z.leb_spec 32 c) as [H|H].
    + unfold plen. replace (Z.min c 32) with 32 by lia. change (2 ^ (32 - 32)) with 1. rewrite Z.div_1_r, Z.mul_1_r.
      change 4294967295 with (2 ^ 32 - 1). rewrite land_ones_mod by lia. apply Z.mod_small. apply ee32_range. assumption.
    + unfold plen. replace (Z.min c 32) with c by lia. rewrite Z.shiftl_mul_pow2, Z.mul_1_l by lia. rewrite lnot_mask by lia.
      assert (P : 1 < 2 ^ (32 - c) < 2 ^ 32).
      { split; [apply Z.pow_gt_1; lia|apply Z.pow_lt_mono_r; lia]. }
      rewrite Z.mod_small by lia. rewrite <- ee32_land by lia. f_equal.
      change (2 ^ 32) with 4294967296 in *. apply land_netmask; lia.
Qed.

Lemma net_mul_range a c : 0 <= a < 2 ^ 32 -> 0 <= c -> 0 <= network a c * 2 ^ (32 - plen c) < 2 ^ 32.
Proof.
  intros Ha Hc. unfold network. destruct (plen_pow c Hc) as [P _].
  pose proof (Z.div_pos a _ ltac:(lia) P). pose proof (Z.mul_div_le a _ P). nia.
Qed.

(** A live slot stores the masked network of some prefix. *)
Definition slot_wf (s : aip) : Prop :=
  a_used s = true -> 0 <= a_cidr s < 256 /\ 0 <= a_peer s < 256 /\
    exists a, 0 <= a < 2 ^ 32 /\ a_ip s = ee32 (network a (a_cidr s) * 2 ^ (32 - plen (a_cidr s))).
Definition decode1 (s : aip) : Z * Z * Z :=
  (ee32 (a_ip s) / 2 ^ (32 - plen (a_cidr s)), a_cidr s, a_peer s).
Definition decode (l : list aip) : rmap := map decode1 (filter a_used l).

Lemma decode1_net s a : 0 <= a < 2 ^ 32 -> 0 <= a_cidr s ->
  a_ip s = ee32 (network a (a_cidr s) * 2 ^ (32 - plen (a_cidr s))) ->
  decode1 s = (network a (a_cidr s), a_cidr s, a_peer s).
Proof.
  intros Ha Hc E. unfold decode1. rewrite E. rewrite ee32_inv by (apply net_mul_range; assumption).
  destruct (plen_pow _ Hc) as [P _]. rewrite Z.div_mul by lia. reflexivity.
Qed.

(** Slot comparison on raw words is prefix comparison. *)
Lemma slot_match s a c : slot_wf s -> a_used s = true -> 0 <= a < 2 ^ 32 -> 0 <= c ->
  (Z.land (ee32 a) (cidr_to_mask c) =? a_ip s) && (a_cidr s =? c) = same_prefix (network a c) c (decode1 s).
Proof.
  intros HS HU Ha Hc. destruct (HS HU) as (HC & HP & b & Hb & E). rewrite (decode1_net s b Hb ltac:(lia) E).
  unfold same_prefix. cbn [fst snd]. destruct (Z.eqb_spec (a_cidr s) c) as [<- |D]; [|rewrite !andb_false_r; reflexivity].
  rewrite !andb_true_r. rewrite mask_land, E by assumption. destruct (plen_pow _ Hc) as [P _].
  apply Bool.eq_iff_eq_true. rewrite !Z.eqb_eq. split.
  - intros H. apply ee32_inj in H; [|apply net_mul_range; assumption|apply net_mul_range; assumption].
    apply Z.mul_reg_r in H; lia.
  - intros H. rewrite H. reflexivity.
Qed.
Lemma slot_contains s a : slot_wf s -> a_used s = true -> 0 <= a < 2 ^ 32 ->
  (Z.land (ee32 a) (cidr_to_mask (a_cidr s)) =? a_ip s) = (network a (a_cidr s) =? fst (fst (decode1 s))).
Proof.
  intros HS HU Ha. destruct (HS HU) as (HC & _). pose proof (slot_match s a (a_cidr s) HS HU Ha ltac:(lia)) as H.
  rewrite Z.eqb_refl, andb_true_r in H. rewrite H. unfold same_prefix. cbn [decode1 fst snd]. rewrite Z.eqb_refl, andb_true_r. apply Z.eqb_sym.
Qed.

Definition keys (m : rmap) := map fst m.

Lemma update_none l a c p : Forall slot_wf l -> 0 <= a < 2 ^ 32 -> 0 <= c ->
  aips_update l (Z.land (ee32 a) (cidr_to_mask c)) c p = None <-> existsb (same_prefix (network a c) c) (decode l) = false.
Proof.
  intros HF Ha Hc. induction l as [|s l IH]; [cbn; tauto|]. inversion HF; subst. specialize (IH H2).
  unfold decode in *. cbn [aips_update filter]. destruct (a_used s) eqn:U.
  - cbn [andb map existsb]. rewrite <- slot_match by assumption. rewrite (Z.eqb_sym (a_ip s)).
    destruct ((_ =? a_ip s) && (a_cidr s =? c)) eqn:M; cbn [orb]; [split; discriminate|].
    rewrite <- IH. destruct (aips_update l _ c p); split; congruence.
  - cbn [andb]. rewrite <- IH. destruct (aips_update l _ c p); split; congruence.
Qed.

Lemma update_some l a c p l' : Forall slot_wf l -> NoDup (keys (decode l)) -> 0 <= a < 2 ^ 32 -> 0 <= c -> 0 <= p < 256 ->
  aips_update l (Z.land (ee32 a) (cidr_to_mask c)) c p = Some l' ->
  Forall slot_wf l' /\ length l' = length l /\
  decode l' = map (fun e => if same_prefix (network a c) c e then (network a c, c, p) else e) (decode l).
Proof.
  intros HF HN Ha Hc Hp. revert l'. induction l as [|s l IH]; intros l'; [discriminate|]. inversion HF; subst.
  unfold decode in *. cbn [aips_update filter]. destruct (a_used s) eqn:U.
  - cbn [andb map]. cbn [filter] in HN. rewrite U in HN. cbn [map keys] in HN. inversion HN; subst. fold (keys (map decode1 (filter a_used l))) in *.
    rewrite <- slot_match by assumption. rewrite (Z.eqb_sym (a_ip s)).
    destruct ((_ =? a_ip s) && (a_cidr s =? c)) eqn:M.
    + intros E. apply some_inj in E; symmetry in E; subst. cbn [filter a_used]. split; [|split].
      * constructor; [|assumption]. intros _. cbn [a_cidr a_peer a_ip]. destruct (H1 U) as (Q1 & Q2 & Q3). auto.
      * reflexivity.
      * cbn [map]. assert (SP : same_prefix (network a c) c (decode1 s) = true) by (rewrite <- slot_match; assumption).
        f_equal.
        -- unfold same_prefix in SP. unfold decode1 in *. cbn [fst snd a_ip a_cidr a_peer] in *.
           apply andb_true_iff in SP. destruct SP as [S1 S2]. apply Z.eqb_eq in S1, S2. congruence.
        -- rewrite <- (map_id (map decode1 (filter a_used l))) at 1. apply map_ext_in. intros e He.
           destruct (same_prefix (network a c) c e) eqn:SE; [|reflexivity]. exfalso. apply H3.
           change (In (fst (decode1 s)) (map fst (map decode1 (filter a_used l)))).
           assert (fst e = fst (decode1 s)) as <-; [|apply in_map; assumption].
           unfold same_prefix in *. destruct e as [[e1 e2] e3], (decode1 s) as [[d1 d2] d3]. cbn [fst snd] in *. f_equal; lia.
    + destruct (aips_update l _ c p) as [r|] eqn:ER; [|discriminate]. intros E. apply some_inj in E; symmetry in E; subst.
      destruct (IH H2 H4 r eq_refl) as (I1 & I2 & I3). split; [constructor; assumption|]. split; [cbn; congruence|].
      cbn [filter]. rewrite U. cbn [map]. rewrite I3. reflexivity.
  - cbn [andb]. cbn [filter] in HN. rewrite U in HN. destruct (aips_update l _ c p) as [r|] eqn:ER; [|discriminate].
    intros E. apply some_inj in E; symmetry in E; subst. destruct (IH H2 HN r eq_refl) as (I1 & I2 & I3).
    split; [constructor; assumption|]. split; [cbn; congruence|]. cbn [filter]. rewrite U. assumption.
Qed.

Lemma filter_len l : (length (filter a_used l) <= length l)%nat.
Proof. induction l as [|s l IH]; cbn; [lia|]. destruct (a_used s); cbn; lia. Qed.
Lemma alloc_none l x c p : aips_alloc l x c p = None <-> zlen (decode l) = zlen l.
Proof.
  unfold zlen, decode. rewrite map_length. induction l as [|s l IH]; [cbn; tauto|]. cbn [aips_alloc filter length].
  pose proof (filter_len l). destruct (a_used s) eqn:U; cbn [negb length].
  - destruct (aips_alloc l x c p); split; try congruence; try lia.
    + intros E. destruct IH as [_ IH]. assert (Some l0 = None) by (apply IH; lia). discriminate.
    + intros _. destruct IH as [IH _]. specialize (IH eq_refl). lia.
  - split; [discriminate|lia].
Qed.
Lemma alloc_some l a c p l' : Forall slot_wf l -> 0 <= a < 2 ^ 32 -> 0 <= c < 256 -> 0 <= p < 256 ->
  aips_alloc l (Z.land (ee32 a) (cidr_to_mask c)) c p = Some l' ->
  Forall slot_wf l' /\ length l' = length l /\ Permutation (decode l') ((network a c, c, p) :: decode l).
Proof.
  intros HF Ha Hc Hp. revert l'. induction l as [|s l IH]; intros l'; [discriminate|]. inversion HF; subst.
  unfold decode in *. cbn [aips_alloc filter]. destruct (a_used s) eqn:U; cbn [negb].
  - destruct (aips_alloc l _ c p) as [r|] eqn:ER; [|discriminate]. intros E. apply some_inj in E; symmetry in E; subst.
    destruct (IH H2 r eq_refl) as (I1 & I2 & I3). split; [constructor; assumption|]. split; [cbn; congruence|].
    cbn [filter]. rewrite U. cbn [map]. rewrite I3. apply perm_swap.
  - intros E. apply some_inj in E; symmetry in E; subst. split; [|split; [reflexivity|]].
    + constructor; [|assumption]. intros _. cbn [a_cidr a_peer a_ip]. split; [assumption|]. split; [assumption|].
      exists a. split; [assumption|]. apply mask_land; lia.
    + cbn [filter a_used map]. rewrite (decode1_net _ a); [reflexivity|assumption|cbn; lia|]. cbn [a_ip a_cidr]. apply mask_land; lia.
Qed.

Lemma remove_spec l p : Forall slot_wf l ->
  Forall slot_wf (aips_remove l p) /\ length (aips_remove l p) = length l /\
  decode (aips_remove l p) = filter (fun e => negb (snd e =? p)) (decode l).
Proof.
  intros HF. unfold aips_remove. rewrite map_length. split; [|split; [reflexivity|]].
  - apply Forall_map. eapply Forall_impl; [|exact HF]. intros s HS. cbn. destruct (a_used s && (a_peer s =? p)); [intros H; discriminate|assumption].
  - unfold decode. clear HF. induction l as [|s l IH]; [reflexivity|]. cbn [map filter]. destruct (a_used s) eqn:U; cbn [andb].
    + cbn [map filter]. destruct (a_peer s =? p) eqn:E.
      * cbn [a_used aip_zero]. rewrite IH. cbn [decode1 snd]. rewrite E. reflexivity.
      * rewrite U. cbn [map]. rewrite IH. cbn [decode1 snd]. rewrite E. reflexivity.
    + rewrite U. exact IH.
Qed.

Definition R (l : list aip) (m : rmap) : Prop :=
  Forall slot_wf l /\ length l = 32%nat /\ NoDup (keys m) /\ Permutation (decode l) m.

Lemma existsb_perm {A} (f : A -> bool) l l' : Permutation l l' -> existsb f l = existsb f l'.
Proof.
  intros P. apply Bool.eq_iff_eq_true. rewrite !existsb_exists.
  split; intros (x & I & E); exists x; (split; [|exact E]); [apply (Permutation_in _ P I)|apply (Permutation_in _ (Permutation_sym P) I)].
Qed.
Lemma keys_replace n c p m : keys (map (fun e => if same_prefix n c e then (n, c, p) else e) m) = keys m.
Proof.
  unfold keys. rewrite map_map. apply map_ext. intros [[e1 e2] e3]. unfold same_prefix. cbn [fst snd].
  destruct ((e1 =? n) && (e2 =? c)) eqn:E; [|reflexivity]. cbn. f_equal; lia.
Qed.
Lemma keys_filter f m : NoDup (keys m) -> NoDup (keys (filter f m)).
Proof.
  unfold keys. induction m as [|e m IH]; cbn; [auto|]. intros H. inversion H; subst. destruct (f e); cbn; [|auto].
  constructor; [|auto]. intros I. apply H2. apply in_map_iff in I. destruct I as (x & E & I). apply filter_In in I.
  apply in_map_iff. exists x. tauto.
Qed.

Lemma op_refines l m o : R l m -> aop_wf o ->
  snd (model_op l o) = snd (spec_op m o) /\ R (fst (model_op l o)) (fst (spec_op m o)).
Proof.
  intros (HF & HL & HN & HP) HW. destruct o as [a c p|p]; cbn [model_op spec_op].
  - destruct HW as (Ha & Hc & Hp). unfold aips_insert.
    assert (HNd : NoDup (keys (decode l))).
    { unfold keys in *. eapply Permutation_NoDup; [|exact HN]. apply Permutation_map. apply Permutation_sym. exact HP. }
    rewrite <- (existsb_perm _ _ _ HP).
    pose proof (update_none l a c p HF Ha ltac:(lia)) as UN.
    destruct (aips_update l (Z.land (ee32 a) (cidr_to_mask c)) c p) as [l'|] eqn:EU.
    + destruct (existsb (same_prefix (network a c) c) (decode l)) eqn:EX; [|destruct UN as [_ UN]; specialize (UN eq_refl); discriminate].
      destruct (update_some l a c p l' HF HNd Ha ltac:(lia) Hp EU) as (U1 & U2 & U3). cbn [fst snd]. split; [reflexivity|].
      unfold R. rewrite keys_replace, U3. repeat split; [assumption|congruence|assumption|apply Permutation_map; assumption].
    + destruct UN as [UN _]. rewrite (UN eq_refl).
      pose proof (alloc_none l (Z.land (ee32 a) (cidr_to_mask c)) c p) as AN.
      assert (ZL : zlen l = 32) by (unfold zlen; rewrite HL; reflexivity).
      assert (ZM : zlen m = zlen (decode l)) by (unfold zlen; rewrite (Permutation_length HP); reflexivity).
      pose proof (filter_len l) as FL.
      assert (ZD : zlen (decode l) <= 32) by (unfold zlen, decode; rewrite map_length; lia).
      destruct (aips_alloc l (Z.land (ee32 a) (cidr_to_mask c)) c p) as [l'|] eqn:EA.
      * destruct (Z.ltb_spec (zlen m) 32) as [H|H].
        -- destruct (alloc_some l a c p l' HF Ha Hc Hp EA) as (A1 & A2 & A3). cbn [fst snd]. split; [reflexivity|].
           split; [assumption|]. split; [congruence|]. split.
           ++ cbn [keys map]. constructor; [|assumption]. intros I. apply in_map_iff in I. destruct I as (e & E & I).
              specialize (UN eq_refl). rewrite (existsb_perm _ _ _ HP) in UN.
              assert (existsb (same_prefix (network a c) c) m = true); [|congruence].
              apply existsb_exists. exists e. split; [assumption|]. unfold same_prefix. rewrite E. cbn [fst snd]. rewrite !Z.eqb_refl. reflexivity.
           ++ rewrite A3. apply perm_skip. assumption.
        -- destruct AN as [_ AN]. assert (Some l' = None) by (apply AN; lia). discriminate.
      * destruct AN as [AN _]. specialize (AN eq_refl). destruct (Z.ltb_spec (zlen m) 32) as [H|H]; [lia|].
        cbn [fst snd]. split; [reflexivity|]. split; [assumption|]. split; [assumption|]. split; assumption.
  - destruct (remove_spec l p HF) as (R1 & R2 & R3). cbn [fst snd]. split; [reflexivity|].
    split; [assumption|]. split; [congruence|]. split; [apply keys_filter; assumption|]. rewrite R3.
    clear - HP. induction HP; cbn [filter]; [constructor| | |eapply perm_trans; eassumption].
    + destruct (negb (snd x =? p)); [apply perm_skip|]; assumption.
    + destruct (negb (snd x =? p)), (negb (snd y =? p)); try apply perm_swap; apply Permutation_refl.
Qed.

(** The lookup scan. *)
Lemma scan_spec a : 0 <= a < 2 ^ 32 -> forall l bi bc, Forall slot_wf l ->
  (bi = -1 \/ 0 <= bi) ->
  let r := aips_scan l (ee32 a) bi bc in
  (r = bi /\ (forall e, In e (decode l) -> network a (snd (fst e)) = fst (fst e) -> 0 <= bi /\ snd (fst e) <= bc)) \/
  (exists n c, In (n, c, r) (decode l) /\ network a c = n /\ (bi = -1 \/ bc < c) /\
     forall e, In e (decode l) -> network a (snd (fst e)) = fst (fst e) -> snd (fst e) <= c).
Proof.
  intros Ha. induction l as [|s l IH]; intros bi bc HF HB; [cbn; left; split; [reflexivity|intros e []]|].
  inversion HF; subst. cbn [aips_scan]. unfold decode in *. cbn [filter]. destruct (a_used s) eqn:U; cbn [negb].
  2:{ apply IH; assumption. }
  cbn [map]. rewrite slot_contains by assumption. destruct (H1 U) as (HC & HPe & _).
  destruct (Z.eqb_spec (network a (a_cidr s)) (fst (fst (decode1 s)))) as [E|E].
  - destruct ((bi <? 0) || (bc <? a_cidr s)) eqn:B.
    + destruct (IH (a_peer s) (a_cidr s) H2 ltac:(lia)) as [[R1 R2]|(n & c & I & N & L & M)].
      * right. exists (fst (fst (decode1 s))), (a_cidr s). rewrite R1. split; [left; reflexivity|]. split; [assumption|]. split; [lia|].
        intros e [<- |I] Q; [cbn; lia|]. apply R2 in Q; [lia|assumption].
      * right. exists n, c. split; [right; assumption|]. split; [assumption|]. split; [lia|].
        intros e [<- |I2] Q; [cbn; lia|]. apply M; assumption.
    + destruct (IH bi bc H2 HB) as [[R1 R2]|(n & c & I & N & L & M)].
      * left. split; [assumption|]. intros e [<- |I] Q; [cbn; lia|]. apply R2; assumption.
      * right. exists n, c. split; [right; assumption|]. split; [assumption|]. split; [assumption|].
        intros e [<- |I2] Q; [cbn; lia|]. apply M; assumption.
  - destruct (IH bi bc H2 HB) as [[R1 R2]|(n & c & I & N & L & M)].
    + left. split; [assumption|]. intros e [<- |I] Q; [cbn in Q; cbn in E; congruence|]. apply R2; assumption.
    + right. exists n, c. split; [right; assumption|]. split; [assumption|]. split; [assumption|].
      intros e [<- |I2] Q; [cbn in Q; cbn in E; congruence|]. apply M; assumption.
Qed.

Lemma nodup_keys m e e' : NoDup (keys m) -> In e m -> In e' m -> fst e = fst e' -> e = e'.
Proof.
  unfold keys. induction m as [|x m IH]; cbn; [tauto|]. intros H [<- |I] [<- |I'] E; inversion H; subst; auto.
  - exfalso. apply H2. rewrite E. apply in_map. assumption.
  - exfalso. apply H2. rewrite <- E. apply in_map. assumption.
Qed.

Lemma lookup_lpm l m a : R l m -> 0 <= a < 2 ^ 32 -> lpm m a (aips_lookup l (ee32 a)).
Proof.
  intros (HF & HL & HN & HP) Ha. unfold aips_lookup.
  destruct (scan_spec a Ha l (-1) 0 HF ltac:(lia)) as [[R1 R2]|(n & c & I & N & L & M)].
  - left. split; [assumption|]. intros n c p I Q. apply (Permutation_in _ (Permutation_sym HP)) in I.
    specialize (R2 _ I Q). lia.
  - right. exists n, c. split; [apply (Permutation_in _ HP); assumption|]. split; [assumption|].
    intros n' c' p' I' Q'. pose proof (M _ (Permutation_in _ (Permutation_sym HP) I') Q') as MM. cbn in MM.
    destruct (Z.eq_dec c' c) as [-> |D]; [|left; lia]. right.
    apply (nodup_keys m); [assumption|assumption|apply (Permutation_in _ HP); assumption|]. cbn. congruence.
Qed.

Lemma run_refines ops : forall l m, R l m -> Forall aop_wf ops ->
  snd (model_run l ops) = snd (spec_run m ops) /\ R (fst (model_run l ops)) (fst (spec_run m ops)).
Proof.
  induction ops as [|o ops IH]; intros l m HR HW; [split; [reflexivity|assumption]|].
  inversion HW; subst. destruct (op_refines l m o HR H1) as [E HR1]. cbn [model_run spec_run].
  destruct (model_op l o) as [l1 r], (spec_op m o) as [m1 r']. cbn [fst snd] in *. subst r'.
  destruct (IH l1 m1 HR1 H2) as [E2 HR2]. destruct (model_run l1 ops) as [l2 rs], (spec_run m1 ops) as [m2 rs'].
  cbn [fst snd] in *. split; [congruence|assumption].
Qed.

Lemma R_init : R aips_init [].
Proof.
  split; [|split; [reflexivity|split; [constructor|reflexivity]]].
  apply Forall_forall. intros s I H. apply repeat_spec in I. subst. discriminate.
Qed.

(** C31.  After any history of insertions and per-peer removals, every call has
    returned what a 32-entry map from prefixes to peers returns, and a lookup
    gives the peer of the longest live prefix that holds the address (-1 if none). *)
Theorem cryptokey_routing_is_lpm : forall ops, Forall aop_wf ops ->
  snd (model_run aips_init ops) = snd (spec_run [] ops) /\
  forall a, 0 <= a < 2 ^ 32 -> lpm (fst (spec_run [] ops)) a (aips_lookup (fst (model_run aips_init ops)) (ee32 a)).
Proof.
  intros ops HW. destruct (run_refines ops aips_init [] R_init HW) as [E HR]. split; [assumption|].
  intros a Ha. apply lookup_lpm; assumption.
Qed.

(** The address a receiver sees in four header bytes. *)
Definition addr_at (bs : list Z) (off : nat) : Z :=
  16777216 * nth off bs 0 + 65536 * nth (off + 1) bs 0 + 256 * nth (off + 2) bs 0 + nth (off + 3) bs 0.

Lemma nth_skipn_z (l : list Z) n i : nth i (skipn n l) 0 = nth (n + i) l 0.
Proof. revert n; induction l as [|x l IH]; intros n; [rewrite skipn_nil; destruct i, n; reflexivity|]. destruct n; [reflexivity|]. cbn. apply IH. Qed.

Lemma byte_at bs i : Forall byte bs -> byte (nth i bs 0).
Proof. intros H. destruct (nth_in_or_default i bs 0) as [I|E]; [rewrite Forall_forall in H; auto|rewrite E; unfold byte; lia]. Qed.

Lemma load_le_ee b0 b1 b2 b3 : byte b0 -> byte b1 -> byte b2 -> byte b3 ->
  b0 + 256 * b1 + 65536 * b2 + 16777216 * b3 = ee32 (16777216 * b0 + 65536 * b1 + 256 * b2 + b3).
Proof.
  unfold byte. intros. set (x := 16777216 * b0 + 65536 * b1 + 256 * b2 + b3). unfold ee32.
  assert (X1 : Z.shiftr x 24 = b0). { rewrite shr by lia. symmetry. apply (Z.div_unique x (2 ^ 24) b0 (65536 * b1 + 256 * b2 + b3)); unfold x; lia. }
  assert (X2 : Z.shiftr x 8 = 65536 * b0 + 256 * b1 + b2). { rewrite shr by lia. symmetry. apply (Z.div_unique x (2 ^ 8) _ b3); unfold x; lia. }
  assert (MB : forall y k, 0 <= k -> Z.land y (255 * 2 ^ k) = 2 ^ k * ((y / 2 ^ k) mod 256)).
  { intros y k Hk. change 256 with (2 ^ 8). rewrite <- land_ones_mod by lia. change (2 ^ 8 - 1) with 255.
    rewrite <- (Z.shiftl_mul_pow2 255 k), (Z.mul_comm (2 ^ k)), <- (Z.shiftl_mul_pow2 _ k) by lia.
    rewrite <- Z.shiftr_div_pow2 by lia. apply Z.bits_inj'. intros n Hn. rewrite Z.land_spec.
    destruct (Z.ltb_spec n k); [rewrite !Z.shiftl_spec_low by lia; apply andb_false_r|].
    rewrite !Z.shiftl_spec by lia. rewrite Z.land_spec, Z.shiftr_spec by lia. f_equal. f_equal. lia. }
  assert (X3 : Z.land (Z.shiftr x 8) 65280 = 256 * b1).
  { rewrite X2. change 65280 with (255 * 2 ^ 8). rewrite MB by lia. change (2 ^ 8) with 256.
    assert (E : (65536 * b0 + 256 * b1 + b2) / 256 = 256 * b0 + b1) by (symmetry; apply (Z.div_unique _ 256 _ b2); lia).
    rewrite E. assert ((256 * b0 + b1) mod 256 = b1) as ->; [|reflexivity]. symmetry. apply (Z.mod_unique _ 256 b0); lia. }
  assert (X4 : Z.land (u32 (Z.shiftl x 8)) 16711680 = 65536 * b2).
  { assert (u32 (Z.shiftl x 8) = 16777216 * b1 + 65536 * b2 + 256 * b3) as ->.
    { rewrite Z.shiftl_mul_pow2 by lia. unfold u32. symmetry. apply (Z.mod_unique _ _ b0); unfold x; lia. }
    change 16711680 with (255 * 2 ^ 16). rewrite MB by lia. change (2 ^ 16) with 65536.
    assert (E : (16777216 * b1 + 65536 * b2 + 256 * b3) / 65536 = 256 * b1 + b2) by (symmetry; apply (Z.div_unique _ 65536 _ (256 * b3)); lia).
    rewrite E. assert ((256 * b1 + b2) mod 256 = b2) as ->; [|reflexivity]. symmetry. apply (Z.mod_unique _ 256 b1); lia. }
  assert (X5 : u32 (Z.shiftl x 24) = 16777216 * b3).
  { rewrite Z.shiftl_mul_pow2 by lia. unfold u32. symmetry. apply (Z.mod_unique _ _ (65536 * b0 + 256 * b1 + b2)); unfold x; lia. }
  rewrite X1, X3, X4, X5.
  rewrite (Z.lor_comm b0), (lor_add (256 * b1) b0 8) by (try lia; rewrite Z.mul_comm; apply Z.mod_mul; lia).
  rewrite (Z.lor_comm _ (65536 * b2)), (lor_add (65536 * b2) _ 16) by (try lia; rewrite Z.mul_comm; apply Z.mod_mul; lia).
  rewrite (Z.lor_comm _ (16777216 * b3)), (lor_add (16777216 * b3) _ 24) by (try lia; rewrite Z.mul_comm; apply Z.mod_mul; lia).
  lia.
Qed.

Lemma load_at bs off : Forall byte bs -> load_le32 (skipn off bs) = ee32 (addr_at bs off) /\ 0 <= addr_at bs off < 2 ^ 32.
Proof.
  intros HB. unfold load_le32, addr_at, zget. change (Z.to_nat 0) with 0%nat. change (Z.to_nat 1) with 1%nat. change (Z.to_nat 2) with 2%nat. change (Z.to_nat 3) with 3%nat.
  rewrite !nth_skipn_z. rewrite Nat.add_0_r.
  pose proof (byte_at bs off HB) as B0. pose proof (byte_at bs (off + 1) HB) as B1. pose proof (byte_at bs (off + 2) HB) as B2. pose proof (byte_at bs (off + 3) HB) as B3.
  split; [apply load_le_ee; assumption|]. unfold byte in *. lia.
Qed.

(** C31, sending: whatever the history of the table, a packet handed to the wg
    interface is encrypted only to the peer that owns the longest prefix holding
    its destination address; if no active peer does, it is refused. *)
Theorem output_goes_to_owner : forall ops active packet, Forall aop_wf ops -> Forall byte packet ->
  let m := fst (spec_run [] ops) in
  let l := fst (model_run aips_init ops) in
  (forall peer, wolfguard_output l active packet = Some peer ->
     lpm m (addr_at packet 16) peer /\ 0 <= peer < 8 /\ active peer = true /\ zlen packet >= 20 /\ nth 0 packet 0 / 16 = 4) /\
  (forall peer, lpm m (addr_at packet 16) peer -> 0 <= peer < 8 -> active peer = true -> zlen packet >= 20 -> nth 0 packet 0 / 16 = 4 ->
     wolfguard_output l active packet = Some peer).
Proof.
  intros ops active packet HW HB m l. destruct (cryptokey_routing_is_lpm ops HW) as [_ HL].
  destruct (run_refines ops aips_init [] R_init HW) as [_ (_ & _ & HN & _)].
  destruct (load_at packet 16 HB) as [LE LR]. specialize (HL _ LR). fold m in HL. fold l in HL. fold m in HN.
  unfold wolfguard_output. rewrite LE. unfold zget. change (Z.to_nat 0) with 0%nat. rewrite shr by lia. change (2 ^ 4) with 16.
  set (res := aips_lookup l (ee32 (addr_at packet 16))) in *. split.
  - intros peer. destruct (Z.ltb_spec (zlen packet) 20); [discriminate|].
    destruct (Z.eqb_spec (nth 0 packet 0 / 16) 4); cbn [negb]; [|discriminate].
    destruct ((res <? 0) || (8 <=? res)) eqn:RR; [discriminate|]. destruct (active res) eqn:AC; cbn [negb]; [|discriminate].
    intros E. apply some_inj in E; symmetry in E; subst. repeat split; try assumption; lia.
  - intros peer HP Hr Ha Hz H4. assert (res = peer).
    { destruct HP as [[-> _]|(n & c & I & N & M)]; [lia|]. destruct HL as [[Q1 Q2]|(n' & c' & I' & N' & M')].
      - exfalso. apply (Q2 _ _ _ I N).
      - destruct (M _ _ _ I' N') as [L1|L1]; [|congruence]. destruct (M' _ _ _ I N) as [L2|L2]; [lia|congruence]. }
    rewrite H. destruct (Z.ltb_spec (zlen packet) 20); [lia|]. rewrite H4. cbn [Z.eqb Pos.eqb negb].
    destruct ((peer <? 0) || (8 <=? peer)) eqn:RR; [lia|]. rewrite Ha. reflexivity.
Qed.

(** C31, receiving: a decrypted packet is injected into the stack, unchanged,
    exactly when it is an IPv4 packet whose declared length fits and whose source
    address belongs (longest prefix) to the peer whose key decrypted it. *)
Theorem inject_only_from_owner : forall ops peer plaintext, Forall aop_wf ops -> Forall byte plaintext -> 0 <= peer ->
  let m := fst (spec_run [] ops) in
  let l := fst (model_run aips_init ops) in
  forall out, wg_inject l peer plaintext = Some out <->
    out = plaintext /\ zlen plaintext >= 20 /\ nth 0 plaintext 0 / 16 = 4 /\
    256 * nth 2 plaintext 0 + nth 3 plaintext 0 <= zlen plaintext /\ lpm m (addr_at plaintext 12) peer.
Proof.
  intros ops peer packet HW HB Hpe m l. destruct (cryptokey_routing_is_lpm ops HW) as [_ HL].
  destruct (load_at packet 12 HB) as [LE LR]. specialize (HL _ LR). fold m in HL. fold l in HL.
  unfold wg_inject. rewrite LE. unfold zget. change (Z.to_nat 0) with 0%nat. change (Z.to_nat 2) with 2%nat. change (Z.to_nat 3) with 3%nat.
  rewrite shr by lia. change (2 ^ 4) with 16.
  pose proof (byte_at packet 2 HB) as B2. pose proof (byte_at packet 3 HB) as B3. unfold byte in B2, B3.
  assert (EL : u16 (Z.lor (Z.shiftl (nth 2 packet 0) 8) (nth 3 packet 0)) = 256 * nth 2 packet 0 + nth 3 packet 0).
  { rewrite Z.shiftl_mul_pow2 by lia. rewrite (lor_add _ _ 8) by (try lia; apply Z.mod_mul; lia).
    unfold u16. rewrite Z.mod_small; lia. }
  rewrite EL. set (res := aips_lookup l (ee32 (addr_at packet 12))) in *.
  assert (UN : lpm m (addr_at packet 12) peer -> res = peer).
  { intros HP. destruct HP as [[-> _]|(n & c & I & N & M)]; [lia|]. destruct HL as [[Q1 Q2]|(n' & c' & I' & N' & M')].
    - exfalso. apply (Q2 _ _ _ I N).
    - destruct (M _ _ _ I' N') as [L1|L1]; [|congruence]. destruct (M' _ _ _ I N) as [L2|L2]; [lia|congruence]. }
  intros out. destruct (Z.eqb_spec (zlen packet) 0) as [Z0|Z0]; [split; [discriminate|lia]|].
  destruct (Z.ltb_spec (zlen packet) 20); cbn [orb]; [split; [discriminate|lia]|].
  destruct (Z.eqb_spec (nth 0 packet 0 / 16) 4); cbn [negb]; [|split; [discriminate|tauto]].
  destruct (Z.ltb_spec (zlen packet) (256 * nth 2 packet 0 + nth 3 packet 0)); [split; [discriminate|lia]|].
  destruct ((res <? 0) || negb (res =? peer)) eqn:RR.
  - split; [discriminate|]. intros (_ & _ & _ & _ & HP). apply UN in HP. lia.
  - split.
    + intros E. apply some_inj in E; symmetry in E; subst. assert (res = peer) by lia. rewrite H1 in HL. repeat split; try assumption; lia.
    + intros (-> & _). reflexivity.
Qed.

Print Assumptions cryptokey_routing_is_lpm.
Print Assumptions output_goes_to_owner.
Print Assumptions inject_only_from_owner.

Example ex_aips : let ops := [AInsert 167772160 8 1; AInsert 167837696 16 2; AInsert 0 0 3; AInsert 167837701 32 4; AInsert 167772170 8 5; ARemove 4] in
  let l := fst (model_run aips_init ops) in
  map (fun a => aips_lookup l (ee32 a)) [167837701; 167772161; 134744072] = [2; 5; 3] /\
  fst (spec_run [] ops) = [(0, 0, 3); (2561, 16, 2); (10, 8, 5)].
Proof. vm_compute. split; reflexivity. Qed.
