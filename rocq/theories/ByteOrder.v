(** Byte order conversion, wolfip.h:131-147: on a little-endian target ee16 / ee32
    are byte swaps (the MSVC branch spells the swap out; __builtin_bswap32 is the
    same function).  All models with raw network-order words use these. *)
From Verif Require Import Base Bits.
Local Ltac Zify.zify_post_hook ::= idtac.

(** wolfip.h:143-145 *)
Definition ee32 (x : Z) : Z :=
  Z.lor (Z.lor (Z.lor (Z.shiftr x 24) (Z.land (Z.shiftr x 8) 65280))
        (Z.land (u32 (Z.shiftl x 8)) 16711680)) (u32 (Z.shiftl x 24)).

(** Bit [i] of the result is bit [perm32 i] of the argument. *)
Definition perm32 (i : Z) : Z := i - 8 * (i / 8) + 8 * (3 - i / 8).

Lemma perm32_range i : 0 <= i < 32 -> 0 <= perm32 i < 32.
Proof. unfold perm32. intros. pose proof (Z.div_mod i 8 ltac:(lia)). pose proof (Z.mod_pos_bound i 8 ltac:(lia)). lia. Qed.
Lemma perm32_inv i : 0 <= i < 32 -> perm32 (perm32 i) = i.
Proof.
  intros H. pose proof (perm32_range i H). unfold perm32 in *.
  pose proof (Z.div_mod i 8 ltac:(lia)). pose proof (Z.mod_pos_bound i 8 ltac:(lia)).
  set (j := i - 8 * (i / 8) + 8 * (3 - i / 8)) in *.
  assert (j / 8 = 3 - i / 8). { symmetry. apply (Z.div_unique j 8 _ (i mod 8)); unfold j; lia. }
  rewrite H3. unfold j. lia.
Qed.

Lemma forallb_lt32 (P : Z -> bool) : forallb (fun n => P (Z.of_nat n)) (seq 0 32) = true -> forall i, 0 <= i < 32 -> P i = true.
Proof.
  intros H i Hi. rewrite forallb_forall in H. specialize (H (Z.to_nat i)). rewrite Z2Nat.id in H by lia. apply H. apply in_seq. lia.
Qed.
Lemma mask_bits_a i : 0 <= i < 32 -> Z.testbit 65280 i = ((8 <=? i) && (i <? 16)).
Proof. intros H. apply (forallb_lt32 (fun i => Bool.eqb (Z.testbit 65280 i) ((8 <=? i) && (i <? 16)))) in H; [apply eqb_prop; exact H|reflexivity]. Qed.
Lemma mask_bits_b i : 0 <= i < 32 -> Z.testbit 16711680 i = ((16 <=? i) && (i <? 24)).
Proof. intros H. apply (forallb_lt32 (fun i => Bool.eqb (Z.testbit 16711680 i) ((16 <=? i) && (i <? 24)))) in H; [apply eqb_prop; exact H|reflexivity]. Qed.

Lemma u32_bits x i : 0 <= i < 32 -> Z.testbit (u32 x) i = Z.testbit x i.
Proof. intros. unfold u32. change 4294967296 with (2 ^ 32). apply Z.mod_pow2_bits_low. lia. Qed.
Lemma high_bits x n i : 0 <= n -> 0 <= x < 2 ^ n -> n <= i -> Z.testbit x i = false.
Proof. intros Hn Hx Hi. rewrite <- (Z.mod_small x (2 ^ n)) by lia. apply Z.mod_pow2_bits_high. lia. Qed.
Lemma range_of_bits x n : 0 <= n -> 0 <= x -> (forall i, n <= i -> Z.testbit x i = false) -> 0 <= x < 2 ^ n.
Proof.
  intros Hn H0 H. assert (E : x = x mod 2 ^ n).
  { apply Z.bits_inj'. intros i Hi. destruct (Z.ltb_spec i n).
    - rewrite Z.mod_pow2_bits_low by lia. reflexivity.
    - rewrite Z.mod_pow2_bits_high by lia. apply H. lia. }
  rewrite E. apply Z.mod_pos_bound. apply Z.pow_pos_nonneg; lia.
Qed.
Lemma u32_range x : 0 <= u32 x < 2 ^ 32.
Proof. unfold u32. change 4294967296 with (2 ^ 32). apply Z.mod_pos_bound. reflexivity. Qed.

Lemma ee32_bits x i : 0 <= x < 2 ^ 32 -> 0 <= i < 32 -> Z.testbit (ee32 x) i = Z.testbit x (perm32 i).
Proof.
  intros Hx Hi. unfold ee32. rewrite !Z.lor_spec, !Z.land_spec, !u32_bits, mask_bits_a, mask_bits_b by lia.
  rewrite !Z.shiftr_spec, !Z.shiftl_spec by lia. unfold perm32.
  assert (C : 0 <= i < 8 \/ 8 <= i < 16 \/ 16 <= i < 24 \/ 24 <= i < 32) by lia.
  destruct C as [C|[C|[C|C]]].
  - assert (E : i / 8 = 0) by (symmetry; apply (Z.div_unique i 8 0 i); lia). rewrite E.
    destruct (Z.leb_spec 8 i), (Z.ltb_spec i 16), (Z.leb_spec 16 i), (Z.ltb_spec i 24); try lia. cbn [andb].
    rewrite !andb_false_r, !orb_false_r. rewrite (Z.testbit_neg_r x (i - 24)) by lia. rewrite orb_false_r. f_equal. lia.
  - assert (E : i / 8 = 1) by (symmetry; apply (Z.div_unique i 8 1 (i - 8)); lia). rewrite E.
    destruct (Z.leb_spec 8 i), (Z.ltb_spec i 16), (Z.leb_spec 16 i), (Z.ltb_spec i 24); try lia. cbn [andb].
    rewrite !andb_false_r, !andb_true_r, !orb_false_r. rewrite (high_bits x 32) by lia. rewrite (Z.testbit_neg_r x (i - 24)) by lia.
    cbn [orb]. rewrite orb_false_r. f_equal. lia.
  - assert (E : i / 8 = 2) by (symmetry; apply (Z.div_unique i 8 2 (i - 16)); lia). rewrite E.
    destruct (Z.leb_spec 8 i), (Z.ltb_spec i 16), (Z.leb_spec 16 i), (Z.ltb_spec i 24); try lia. cbn [andb].
    rewrite !andb_false_r, !andb_true_r, !orb_false_r. rewrite (high_bits x 32) by lia. rewrite (Z.testbit_neg_r x (i - 24)) by lia.
    cbn [orb]. rewrite orb_false_r. f_equal. lia.
  - assert (E : i / 8 = 3) by (symmetry; apply (Z.div_unique i 8 3 (i - 24)); lia). rewrite E.
    destruct (Z.leb_spec 8 i), (Z.ltb_spec i 16), (Z.leb_spec 16 i), (Z.ltb_spec i 24); try lia. cbn [andb].
    rewrite !andb_false_r, !orb_false_r. rewrite (high_bits x 32) by lia. cbn [orb]. f_equal. lia.
Qed.

Lemma ee32_range x : 0 <= x < 2 ^ 32 -> 0 <= ee32 x < 2 ^ 32.
Proof.
  intros Hx. assert (N : 0 <= ee32 x).
  { unfold ee32. rewrite !Z.lor_nonneg. repeat split.
    - apply Z.shiftr_nonneg. lia.
    - apply Z.land_nonneg. lia.
    - apply Z.land_nonneg. lia.
    - apply u32_range. }
  apply range_of_bits; [lia|assumption|]. intros i Hi. unfold ee32. rewrite !Z.lor_spec, !Z.land_spec.
  rewrite Z.shiftr_spec by lia. rewrite (high_bits x 32) by lia. rewrite (high_bits 65280 32 i) by lia.
  rewrite (high_bits 16711680 32 i) by lia. rewrite !andb_false_r. rewrite (high_bits (u32 _) 32 i); [reflexivity|lia|apply u32_range|lia].
Qed.

Lemma bits32_ext x y : 0 <= x < 2 ^ 32 -> 0 <= y < 2 ^ 32 -> (forall i, 0 <= i < 32 -> Z.testbit x i = Z.testbit y i) -> x = y.
Proof.
  intros Hx Hy H. apply Z.bits_inj'. intros i Hi. destruct (Z.ltb_spec i 32); [apply H; lia|].
  rewrite !(high_bits _ 32) by lia. reflexivity.
Qed.

Lemma land_range a b : 0 <= a < 2 ^ 32 -> 0 <= b -> 0 <= Z.land a b < 2 ^ 32.
Proof.
  intros Ha Hb. apply range_of_bits; [lia|apply Z.land_nonneg; lia|]. intros i Hi. rewrite Z.land_spec, (high_bits a 32) by lia. reflexivity.
Qed.

Lemma ee32_inv x : 0 <= x < 2 ^ 32 -> ee32 (ee32 x) = x.
Proof.
  intros Hx. apply bits32_ext; [apply ee32_range, ee32_range; assumption|assumption|].
  intros i Hi. rewrite ee32_bits, ee32_bits by (try apply ee32_range; try apply perm32_range; assumption). f_equal. apply perm32_inv. assumption.
Qed.
Lemma ee32_land a b : 0 <= a < 2 ^ 32 -> 0 <= b < 2 ^ 32 -> ee32 (Z.land a b) = Z.land (ee32 a) (ee32 b).
Proof.
  intros Ha Hb. pose proof (land_range a b Ha ltac:(lia)) as HL.
  apply bits32_ext; [apply ee32_range; assumption|apply land_range; [apply ee32_range; assumption|apply ee32_range; assumption]|].
  intros i Hi. rewrite Z.land_spec, !ee32_bits, Z.land_spec by assumption. reflexivity.
Qed.
Lemma ee32_inj a b : 0 <= a < 2 ^ 32 -> 0 <= b < 2 ^ 32 -> ee32 a = ee32 b -> a = b.
Proof. intros Ha Hb H. rewrite <- (ee32_inv a), <- (ee32_inv b), H by assumption. reflexivity. Qed.

Example ex_ee32 : ee32 3232235777 = 16885952. Proof. reflexivity. Qed.
