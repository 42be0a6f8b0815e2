(** Per-message lemmas for the supplicant. *)
From Verif Require Import Base ListUtil HttpUrl EapTls EapTlsProps Eapol EapolProps ForwardSpec ForwardProofs ForwardStep Supplicant SupplicantSpec.
Local Ltac Zify.zify_post_hook ::= idtac.

(** ** Bits *)
Lemma has_bits i r n : (Z.land i r =? r) = true -> Z.testbit r n = true -> Z.testbit i n = true.
Proof. intros H B. apply Z.eqb_eq in H. rewrite <- H, Z.land_spec in B. apply andb_prop in B. tauto. Qed.
Lemma bits_has i r : 0 <= r -> (forall n, 0 <= n -> Z.testbit r n = true -> Z.testbit i n = true) -> Z.land i r = r.
Proof.
  intros HR H. apply Z.bits_inj'. intros n Hn. rewrite Z.land_spec. specialize (H n Hn). destruct (Z.testbit r n); [rewrite H by reflexivity; reflexivity|apply andb_false_r].
Qed.
Lemma clear_bit i k : 0 <= k -> (Z.land i (2 ^ k) =? 0) = negb (Z.testbit i k).
Proof. intros H. rewrite <- (flag_testbit i k H). unfold flag. rewrite Bool.negb_involutive. reflexivity. Qed.
Lemma has_m1 i : key_info_has i (8 + 128) 256 = true <-> Z.testbit i 3 = true /\ Z.testbit i 7 = true /\ Z.testbit i 8 = false.
Proof.
  unfold key_info_has. change 256 with (2 ^ 8). rewrite clear_bit by lia. rewrite Bool.andb_true_iff. split.
  - intros [A B]. split; [apply (has_bits _ _ 3 A); reflexivity|]. split; [apply (has_bits _ _ 7 A); reflexivity|]. destruct (Z.testbit i 8); [discriminate|reflexivity].
  - intros (A & B & D). rewrite D. split; [|reflexivity]. apply Z.eqb_eq, bits_has; [lia|]. intros n Hn T.
    destruct (Z.ltb_spec n 8) as [L|L]; [|rewrite Z.bits_above_log2 in T; [discriminate|lia|change (Z.log2 (8 + 128)) with 7; lia]].
    assert (K : n = 0 \/ n = 1 \/ n = 2 \/ n = 3 \/ n = 4 \/ n = 5 \/ n = 6 \/ n = 7) by lia. intuition (subst n; first [assumption|discriminate T]).
Qed.
Lemma has_m3 i : key_info_has i (8 + 128 + 256 + 64) 0 = true <-> Z.testbit i 3 = true /\ Z.testbit i 7 = true /\ Z.testbit i 8 = true /\ Z.testbit i 6 = true.
Proof.
  unfold key_info_has. rewrite Z.land_0_r, Bool.andb_true_r. split.
  - intros A. split; [apply (has_bits _ _ 3 A); reflexivity|]. split; [apply (has_bits _ _ 7 A); reflexivity|]. split; [apply (has_bits _ _ 8 A); reflexivity|apply (has_bits _ _ 6 A); reflexivity].
  - intros (A & B & D & E). apply Z.eqb_eq, bits_has; [lia|]. intros n Hn T.
    destruct (Z.ltb_spec n 9) as [L|L]; [|rewrite Z.bits_above_log2 in T; [discriminate|lia|change (Z.log2 (8 + 128 + 256 + 64)) with 8; lia]].
    assert (K : n = 0 \/ n = 1 \/ n = 2 \/ n = 3 \/ n = 4 \/ n = 5 \/ n = 6 \/ n = 7 \/ n = 8) by lia. intuition (subst n; first [assumption|discriminate T]).
Qed.
Lemma has_g1 i : key_info_has i (128 + 256 + 512 + 4096) 0 = true <-> Z.testbit i 7 = true /\ Z.testbit i 8 = true /\ Z.testbit i 9 = true /\ Z.testbit i 12 = true.
Proof.
  unfold key_info_has. rewrite Z.land_0_r, Bool.andb_true_r. split.
  - intros A. split; [apply (has_bits _ _ 7 A); reflexivity|]. split; [apply (has_bits _ _ 8 A); reflexivity|]. split; [apply (has_bits _ _ 9 A); reflexivity|apply (has_bits _ _ 12 A); reflexivity].
  - intros (A & B & D & E). apply Z.eqb_eq, bits_has; [lia|]. intros n Hn T.
    destruct (Z.ltb_spec n 13) as [L|L]; [|rewrite Z.bits_above_log2 in T; [discriminate|lia|change (Z.log2 (128 + 256 + 512 + 4096)) with 12; lia]].
    assert (K : n = 0 \/ n = 1 \/ n = 2 \/ n = 3 \/ n = 4 \/ n = 5 \/ n = 6 \/ n = 7 \/ n = 8 \/ n = 9 \/ n = 10 \/ n = 11 \/ n = 12) by lia. intuition (subst n; first [assumption|discriminate T]).
Qed.
Lemma ver_mod i : Z.land i 7 = i mod 8.
Proof. change 7 with (Z.ones 3). rewrite Z.land_ones by lia. reflexivity. Qed.

(** ** Replay counters *)
Lemma num_acc l : forall a, fold_left (fun a b => 256 * a + b) l a = a * 256 ^ zlen l + num l.
Proof.
  unfold num. induction l as [|x l IH]; intros a; [cbn; lia|]. cbn [fold_left]. rewrite IH, (IH (256 * 0 + x)), zlen_cons.
  pose proof (zlen_nonneg l). rewrite Z.pow_add_r by lia. ring.
Qed.
Lemma num_cons x l : num (x :: l) = x * 256 ^ zlen l + num l.
Proof. unfold num at 1. cbn [fold_left]. rewrite num_acc. ring. Qed.
Lemma num_range l : Forall byte l -> 0 <= num l < 256 ^ zlen l.
Proof.
  induction l as [|x l IH]; intros H; [cbn; lia|]. inversion H as [|? ? B1 B2]; subst. specialize (IH B2). rewrite num_cons, zlen_cons. pose proof (zlen_nonneg l).
  rewrite Z.add_comm, Z.pow_add_r by lia. unfold byte in B1. nia.
Qed.
Lemma memcmp_spec a : forall b, zlen a = zlen b -> Forall byte a -> Forall byte b -> memcmp a b = (num a ?= num b).
Proof.
  induction a as [|x a IH]; intros [|y b] L HA HB; try (unfold zlen in L; cbn [length] in L; lia); [reflexivity|].
  inversion HA as [|? ? A1 A2]; inversion HB as [|? ? B1 B2]; subst. rewrite !zlen_cons in L. cbn [memcmp]. rewrite !num_cons.
  assert (L' : zlen a = zlen b) by lia. rewrite <- L'. pose proof (num_range a A2) as R1. pose proof (num_range b B2) as R2. rewrite <- L' in R2.
  destruct (Z.eqb_spec x y) as [-> |D].
  - rewrite IH by assumption. destruct (Z.compare_spec (num a) (num b)); symmetry; [apply Z.compare_eq_iff|apply Z.compare_lt_iff|apply Z.compare_gt_iff]; lia.
  - symmetry. destruct (Z.ltb_spec x y) as [Q|Q]; [apply Z.compare_lt_iff|apply Z.compare_gt_iff]; nia.
Qed.
Lemma newer_spec a b : zlen a = zlen b -> Forall byte a -> Forall byte b -> newer a b = (num b <? num a).
Proof.
  intros L HA HB. unfold newer. rewrite memcmp_spec by assumption. rewrite <- Z.gtb_ltb. unfold Z.gtb. reflexivity.
Qed.

(** ** The frame copy and the MIC *)
Lemma part_split (f : list Z) o n m : 0 <= o -> 0 <= n -> 0 <= m -> o + n + m <= zlen f -> part f o (n + m) = part f o n ++ part f (o + n) m.
Proof.
  intros HO HN HM HL. apply zget_ext; [rewrite zlen_app, !zlen_part by lia; lia|]. rewrite zlen_part by lia. intros i Hi. rewrite zget_part by lia.
  destruct (Z.ltb_spec i n). { rewrite zget_app1 by (rewrite zlen_part by lia; lia). rewrite zget_part by lia. reflexivity. }
  rewrite zget_app2 by (rewrite zlen_part by lia; lia). rewrite zlen_part by lia. rewrite zget_part by lia. f_equal. lia.
Qed.
Lemma verify_spec c s f k copy : Forall byte f -> key_frame f -> key_fields f k -> kv_frame_len k <= 355 -> copy = part f 0 (kv_frame_len k) ++ repeat 0 (Z.to_nat (355 - kv_frame_len k)) ->
  exists v, verify_mic c s k copy = Some v /\ (v = true <-> mic_valid c (is_cmac s) (p_kck (h_ptk (x_h s))) f).
Proof.
  intros HB KF (K1 & _ & _ & _ & _ & _ & K7 & _) L355 ->. destruct KF as (F1 & _ & _ & F4 & F5 & _ & F7). pose proof (word_range f 97 HB) as W97.
  unfold verify_mic. set (L := kv_frame_len k) in *. rewrite zlen_app, zlen_repeat, zlen_part by lia.
  destruct (Z.ltb_spec (L + Z.of_nat (Z.to_nat (355 - L))) L); [lia|].
  assert (SP : part f 0 L = part f 0 81 ++ part f 81 16 ++ part f 97 (L - 97)).
  { replace L with (81 + (16 + (L - 97))) at 1 by lia. rewrite part_split by lia. change (0 + 81) with 81. rewrite part_split by lia. reflexivity. }
  rewrite SP, <- !app_assoc. rewrite (mwrite_eq _ (part f 0 81) (part f 81 16) (part f 97 (L - 97) ++ repeat 0 (Z.to_nat (355 - L))) (repeat 0 16) (4 + 77)
    (part f 0 81 ++ repeat 0 16 ++ part f 97 (L - 97) ++ repeat 0 (Z.to_nat (355 - L)))); [|reflexivity|rewrite zlen_part by lia; reflexivity|rewrite zlen_part by lia; reflexivity|reflexivity].
  cbn [obind]. rewrite (mread_eq _ [] (mic_input f) (repeat 0 (Z.to_nat (355 - L)))); [|unfold mic_input; replace (word f 2 - 93) with (L - 97) by lia; rewrite <- !app_assoc; reflexivity|reflexivity|].
  - cbn [obind]. eexists. split; [reflexivity|]. unfold mic_valid. rewrite <- K7. destruct (cr_mic c (is_cmac s) _ (mic_input f)) as [m|]; [|split; discriminate].
    rewrite bytes_eqb_eq. split; [intros ->; reflexivity|intros H'; injection H'; auto].
  - unfold mic_input. rewrite !zlen_app, zlen_repeat, !zlen_part by lia. lia.
Qed.

(** ** Key data *)
Lemma elem_nonneg p i : Forall byte p -> elem p i -> 0 <= i.
Proof. intros HB. induction 1 as [|i E IH A B]; [lia|]. pose proof (zget_byte p (i + 1) HB). lia. Qed.
Lemma elem_lin_gen p : Forall byte p -> forall n i j, (Z.to_nat (i + j) <= n)%nat -> elem p i -> elem p j -> i < j -> whole p i /\ i + 2 + zget p (i + 1) <= j.
Proof.
  intros HB. induction n as [|n IH]; intros i j HN EI EJ LT.
  - pose proof (elem_nonneg p i HB EI). pose proof (elem_nonneg p j HB EJ). lia.
  - pose proof (elem_nonneg p i HB EI) as NI. inversion EJ as [|j0 E0 A B]; subst; [lia|].
    pose proof (elem_nonneg p j0 HB E0). pose proof (zget_byte p (j0 + 1) HB).
    destruct (Z.lt_trichotomy i j0) as [Q|[Q|Q]].
    + destruct (IH i j0 ltac:(lia) EI E0 Q) as [W1 W2]. split; [exact W1|lia].
    + subst j0. split; [split; [exact EI|split; assumption]|lia].
    + destruct (IH j0 i ltac:(lia) E0 EI Q) as [_ W2]. lia.
Qed.
Lemma elem_lin p i j : Forall byte p -> elem p i -> elem p j -> i < j -> whole p i /\ i + 2 + zget p (i + 1) <= j.
Proof. intros HB. apply (elem_lin_gen p HB (Z.to_nat (i + j))). lia. Qed.
Lemma part4 p i : 0 <= i -> i + 4 <= zlen p -> part p i 4 = [zget p i; zget p (i + 1); zget p (i + 2); zget p (i + 3)].
Proof.
  intros H1 H2. apply zget_ext; [rewrite zlen_part by lia; reflexivity|]. rewrite zlen_part by lia. intros j Hj. rewrite zget_part by lia.
  assert (K : j = 0 \/ j = 1 \/ j = 2 \/ j = 3) by lia. destruct K as [-> |[-> |[-> | ->]]]; [rewrite Z.add_0_r| | |]; reflexivity.
Qed.

Definition walk_post (p : list Z) (rsn : bool) (ie : list Z) (i : Z) (m : bool) (g : option (Z * list Z)) (r : option (bool * option (Z * list Z))) : Prop :=
  match r with
  | Some (m', g') =>
      (rsn = true -> forall j, is_rsn p j -> i <= j -> part p j (zget p (j + 1) + 2) = ie) /\
      (m' = true <-> m = true \/ (rsn = true /\ exists j, is_rsn p j /\ i <= j)) /\
      ((g' = g /\ forall j, is_gtk p j -> j < i) \/ exists idx key, g' = Some (idx, key) /\ carries_gtk p idx key)
  | None => (rsn = true /\ exists j, is_rsn p j /\ part p j (zget p (j + 1) + 2) <> ie) \/
            (exists j, is_gtk p j /\ (zget p (j + 1) = 6 \/ 38 < zget p (j + 1)))
  end.

Lemma walk_end p rsn ie i m g : Forall byte p -> elem p i -> ~ whole p i -> walk_post p rsn ie i m g (Some (m, g)).
Proof.
  intros HB EI NW. assert (Q : forall j, whole p j -> j < i).
  { intros j W. destruct (Z.lt_trichotomy j i) as [L|[-> |L]]; [exact L|contradiction|]. destruct W as [E _]. destruct (elem_lin p i j HB EI E L). contradiction. }
  cbn. split; [intros _ j [W _] LE; specialize (Q j W); lia|]. split; [split; [auto|intros [H|[_ (j & [W _] & LE)]]; [exact H|specialize (Q j W); lia]]|].
  left. split; [reflexivity|]. intros j [W _]. auto.
Qed.
Lemma walk_next p rsn ie i m g r m1 g1 : Forall byte p -> whole p i ->
  walk_post p rsn ie (i + 2 + zget p (i + 1)) m1 g1 r ->
  (rsn = true -> is_rsn p i -> part p i (zget p (i + 1) + 2) = ie) ->
  (m1 = true <-> m = true \/ (rsn = true /\ is_rsn p i)) ->
  ((g1 = g /\ ~ is_gtk p i) \/ (is_gtk p i /\ exists idx key, g1 = Some (idx, key) /\ idx = zget p (i + 6) mod 4 /\ key = part p (i + 8) (zget p (i + 1) - 6) /\ 1 <= zlen key <= 32)) ->
  walk_post p rsn ie i m g r.
Proof.
  intros HB W. pose proof W as (EI & W1 & W2). pose proof (elem_nonneg p i HB EI) as NI. pose proof (zget_byte p (i + 1) HB) as LN.
  assert (NX : forall j, elem p j -> i <= j -> j = i \/ i + 2 + zget p (i + 1) <= j).
  { intros j EJ LE. destruct (Z.eq_dec j i) as [-> |D]; [left; reflexivity|]. right. apply (elem_lin p i j HB EI EJ). lia. }
  destruct r as [[m' g']|]; cbn [walk_post]; [|tauto]. intros (A & B & D) RI MI GI. split; [|split].
  - intros HR j RJ LE. destruct (NX j) as [-> |LE']; [apply RJ|exact LE|auto|auto].
  - rewrite B, MI. split.
    + intros [[H|[H1 H2]]|[H1 (j & H2 & H3)]]; [auto|right; split; [exact H1|exists i; split; [exact H2|lia]]|right; split; [exact H1|exists j; split; [exact H2|lia]]].
    + intros [H|[H1 (j & H2 & H3)]]; [auto|]. destruct (NX j) as [-> |LE']; [apply H2|exact H3|auto|right; eauto].
  - destruct D as [[-> NG]|D]; [|right; exact D]. destruct GI as [[-> NG1]|(IG & idx & key & -> & I1 & I2 & I3)].
    + left. split; [reflexivity|]. intros j GJ. destruct (Z.lt_trichotomy j i) as [L|[-> |L]]; [exact L|contradiction|]. destruct (NX j) as [-> |LE']; [apply GJ|lia|lia|]. specialize (NG j GJ). lia.
    + right. exists idx, key. split; [reflexivity|]. exists i. split; [exact IG|]. split; [exact I1|]. split; [exact I2|]. split; [exact I3|].
      intros j GJ. destruct (Z.le_gt_cases j i) as [L|L]; [exact L|]. destruct (NX j) as [-> |LE']; [apply GJ|lia|lia|]. specialize (NG j GJ). lia.
Qed.
Lemma land3 x : Z.land x 3 = x mod 4.
Proof. change 3 with (Z.ones 2). rewrite Z.land_ones by lia. reflexivity. Qed.

Lemma walk_spec p rsn ie : Forall byte p -> forall fuel i m g, elem p i -> zlen p - i <= Z.of_nat fuel ->
  exists r, kde_walk fuel p rsn ie i m g = Some r /\ walk_post p rsn ie i m g r.
Proof.
  intros HB. induction fuel as [|fuel IH]; intros i m g EI HF; pose proof (elem_nonneg p i HB EI) as NI.
  - exists (Some (m, g)). split; [reflexivity|]. apply walk_end; [exact HB|exact EI|]. intros (_ & W & _). lia.
  - cbn [kde_walk]. destruct (Z.ltb_spec (zlen p) (i + 2)) as [L|L]. { exists (Some (m, g)). split; [reflexivity|]. apply walk_end; [exact HB|exact EI|]. intros (_ & W & _). lia. }
    rewrite !rd1_in by lia. cbn [obind]. pose proof (zget_byte p (i + 1) HB) as LN. set (len := zget p (i + 1)) in *.
    destruct (Z.ltb_spec (zlen p) (i + 2 + len)) as [L2|L2]. { exists (Some (m, g)). split; [reflexivity|]. apply walk_end; [exact HB|exact EI|]. intros (_ & _ & W). unfold len in L2. lia. }
    assert (W : whole p i) by (split; [exact EI|split; assumption]). cbv zeta.
    assert (EN : elem p (i + 2 + len)) by (apply elem_next; assumption).
    destruct (rsn && (zget p i =? 48)) eqn:QR.
    { apply andb_prop in QR. destruct QR as [-> QR]. apply Z.eqb_eq in QR. rewrite mread_part by lia. cbn [obind]. assert (RI : is_rsn p i) by (split; assumption).
      assert (NG : ~ is_gtk p i) by (intros (_ & HG & _); lia).
      destruct (rsn_ie_equal (part p i (len + 2)) ie) eqn:QE.
      - apply rsn_ie_equal_exact in QE. destruct (IH (i + 2 + len) true g EN ltac:(lia)) as (r & E & PO). exists r. split; [exact E|]. eapply walk_next; [exact HB|exact W|exact PO|auto| |left; auto].
        split; [auto|]. intros _. reflexivity.
      - exists None. split; [reflexivity|]. left. split; [reflexivity|]. exists i. split; [exact RI|]. intros HX. fold len in HX. rewrite HX in QE.
        assert (rsn_ie_equal ie ie = true) by (apply rsn_ie_equal_exact; reflexivity). congruence. }
    assert (NR : ~ (rsn = true /\ is_rsn p i)). { intros [-> [_ HX]]. rewrite HX in QR. discriminate. }
    assert (CG : exists b, (if (zget p i =? 221) && (6 <=? len) then
                       do a <- rd1 p (i + 2); do b <- rd1 p (i + 3); do d <- rd1 p (i + 4); do t <- rd1 p (i + 5);
                       Some ((a =? 0) && (b =? 15) && (d =? 172) && (t =? 1))
                     else Some false) = Some b /\ (b = true <-> is_gtk p i)).
    { unfold is_gtk. fold len. destruct (Z.eqb_spec (zget p i) 221) as [Q1|Q1]; cbn [andb]; [|exists false; split; [reflexivity|]; split; [discriminate|tauto]].
      destruct (Z.leb_spec 6 len) as [Q2|Q2]; [|exists false; split; [reflexivity|]; split; [discriminate|lia]].
      rewrite !rd1_in by lia. cbn [obind]. eexists. split; [reflexivity|]. rewrite part4 by lia. replace (i + 2 + 1) with (i + 3) by lia. replace (i + 2 + 2) with (i + 4) by lia. replace (i + 2 + 3) with (i + 5) by lia.
      rewrite !Bool.andb_true_iff, !Z.eqb_eq. split.
      - intros [[[-> ->] ->] ->]. auto 10.
      - intros (_ & _ & _ & HE). injection HE as -> -> -> ->. auto. }
    destruct CG as (b & -> & BG). cbn [obind]. destruct b.
    + assert (IG : is_gtk p i) by (apply BG; reflexivity). pose proof IG as (_ & _ & L6 & _). fold len in L6.
      destruct ((len - 6 =? 0) || (32 <? len - 6)) eqn:QL. { exists None. split; [reflexivity|]. right. exists i. split; [exact IG|]. fold len. lia. }
      rewrite rd1_in by lia. cbn [obind]. rewrite mread_part by lia. cbn [obind].
      rewrite (mwrite_eq (repeat 0 32) [] (repeat 0 (Z.to_nat (len - 6))) (repeat 0 (Z.to_nat (32 - (len - 6)))) (part p (i + 8) (len - 6)) 0
                 (part p (i + 8) (len - 6) ++ repeat 0 (Z.to_nat (32 - (len - 6))))); [|cbn [app]; rewrite <- repeat_split; f_equal; lia|reflexivity|rewrite zlen_part, zlen_repeat by lia; lia|reflexivity].
      cbn [obind]. rewrite mread_pre by (rewrite zlen_part by lia; reflexivity). cbn [obind].
      destruct (IH (i + 2 + len) m (Some (Z.land (zget p (i + 6)) 3, part p (i + 8) (len - 6))) EN ltac:(lia)) as (r & E & PO). exists r. split; [exact E|].
      eapply walk_next; [exact HB|exact W|exact PO|intros HR RI; exfalso; auto|tauto|]. right. split; [exact IG|]. eexists _, _. split; [reflexivity|]. split; [apply land3|]. split; [reflexivity|]. rewrite zlen_part by lia. lia.
    + destruct (IH (i + 2 + len) m g EN ltac:(lia)) as (r & E & PO). exists r. split; [exact E|].
      eapply walk_next; [exact HB|exact W|exact PO|intros HR RI; exfalso; auto|tauto|]. left. split; [reflexivity|]. intros HX. apply BG in HX. discriminate.
Qed.

(** Key data that is acceptable: encrypted, 24..264 bytes, no element spoils it. *)
Definition keydata_ok (c : crypto) (kek f ie : list Z) (rsn : bool) (idx : Z) (key : list Z) : Prop :=
  24 <= word f 97 <= 264 /\ word f 97 mod 8 = 0 /\ bit f b_encrypted /\ exists p, unwraps c kek f p /\ carries_gtk p idx key /\
  (forall j, is_gtk p j -> 7 <= zget p (j + 1) <= 38) /\ (rsn = true -> rsn_confirmed p ie).
Lemma parse_data_spec c s f k rsn : crypto_ok c -> Forall byte f -> key_frame f -> key_fields f k -> exists r, parse_key_data c s k rsn = Some r /\
  (forall idx key, r = Some (idx, key) -> exists p, bit f b_encrypted /\ unwraps c (p_kek (h_ptk (x_h s))) f p /\ carries_gtk p idx key /\ (rsn = true -> rsn_confirmed p (f_apie (x_f s)))) /\
  (forall idx key, keydata_ok c (p_kek (h_ptk (x_h s))) f (f_apie (x_f s)) rsn idx key -> r = Some (idx, key)).
Proof.
  intros (_ & CU) HB KF (K1 & K2 & K3 & _ & _ & _ & _ & K8). destruct KF as (F1 & _ & _ & F4 & F5 & _ & F7). pose proof (word_range f 97 HB) as W97.
  assert (ZD : zlen (kv_data k) = word f 97) by (rewrite K8; apply zlen_part; lia). unfold parse_key_data, keydata_ok, unwraps, key_data. rewrite ZD, <- K8.
  destruct ((word f 97 <? 24) || (264 <? word f 97)) eqn:Q1. { exists None. split; [reflexivity|]. split; [discriminate|]. intros idx key (A & _). lia. }
  destruct (Z.eqb_spec (word f 97 mod 8) 0) as [Q2|Q2]; cbn [negb]. 2: { exists None. split; [reflexivity|]. split; [discriminate|]. intros idx key (_ & A & _). contradiction. }
  change 4096 with (2 ^ 12). rewrite clear_bit by lia. rewrite K3. unfold bit, b_encrypted. destruct (Z.testbit (word f 5) 12) eqn:Q3; cbn [negb].
  2: { exists None. split; [reflexivity|]. split; [discriminate|]. intros idx key (_ & _ & A & _). discriminate. }
  destruct (cr_unwrap c (p_kek (h_ptk (x_h s))) (kv_data k)) as [p|] eqn:QU. 2: { exists None. split; [reflexivity|]. split; [discriminate|]. intros idx key (_ & _ & _ & p & A & _). discriminate. }
  destruct (CU _ _ _ QU) as [LP PB].
  destruct (walk_spec p rsn (f_apie (x_f s)) PB (length p) 0 false None) as (r & -> & PO); [constructor|unfold zlen; lia|]. cbn [obind].
  eexists. split; [reflexivity|]. destruct r as [[m g]|]; cbn [walk_post] in PO.
  - destruct PO as (RA & MB & GB).
    assert (CR : m = true -> rsn = true -> rsn_confirmed p (f_apie (x_f s))).
    { intros HM HR. apply MB in HM. destruct HM as [HM|[_ (j & J1 & J2)]]; [discriminate|]. split; [eauto|]. intros i RI. apply RA; [exact HR|exact RI|]. apply (elem_nonneg p i PB). apply RI. }
    split.
    + intros idx key HX. destruct g as [[i' k']|]; [|discriminate]. destruct GB as [[HG _]|(i2 & k2 & HG & CG)]; [discriminate|]. injection HG as <- <-. exists p.
      destruct rsn; cbn [andb] in HX; [destruct m; cbn [negb] in HX; [|discriminate]|]; injection HX as <- <-; repeat (split; [first [reflexivity|exact CG]|]); [intros _; apply CR; reflexivity|discriminate].
    + intros idx key (_ & _ & _ & p' & HP & CG & _ & RC). injection HP as <-. pose proof CG as (i & IG & _ & _ & _ & LAST). pose proof (elem_nonneg p i PB ltac:(apply IG)) as NI.
      destruct GB as [[-> NG]|(i2 & k2 & -> & CG2)]; [specialize (NG i IG); lia|].
      assert (EQ : (i2, k2) = (idx, key)).
      { destruct CG as (j1 & G1 & -> & -> & _ & M1). destruct CG2 as (j2 & G2 & -> & -> & _ & M2). specialize (M1 j2 G2). specialize (M2 j1 G1). replace j2 with j1 by lia. reflexivity. }
      injection EQ as -> ->. destruct rsn; [|reflexivity]. cbn [andb]. destruct m; [reflexivity|]. exfalso.
      destruct (RC eq_refl) as [(j & RJ) _]. assert (false = true); [|discriminate]. apply MB. right. split; [reflexivity|]. exists j. split; [exact RJ|apply (elem_nonneg p j PB); apply RJ].
  - split; [discriminate|]. intros idx key (_ & _ & _ & p' & HP & _ & GOK & RC). injection HP as <-. exfalso. destruct PO as [[HR (j & RJ & NE)]|(j & GJ & BD)].
    + destruct (RC HR) as [_ RA]. auto.
    + specialize (GOK j GJ). lia.
Qed.

(** ** Sending *)
Definition with_mic (kb mic : list Z) : list Z := part kb 0 81 ++ mic ++ part kb 97 (zlen kb - 97).
Lemma send_spec_key c e s info klen replay nn data : crypto_ok c -> 0 <= info < 65536 -> 0 <= klen < 65536 -> zlen replay = 8 -> zlen nn = 32 -> zlen data <= 64 ->
  exists o ok, send_key c e s info klen replay nn data = Some (o, ok) /\
  match cr_mic c (is_cmac s) (p_kck (h_ptk (x_h s))) (key_bytes info klen replay nn data), f_send (x_f s) with
  | Some mic, true => o = [OSend (with_mic (key_bytes info klen replay nn data) mic)] /\ ok = e_send e
  | _, _ => o = [] /\ ok = false
  end.
Proof.
  intros (CM & _) HI HK HR HN HD. unfold send_key. pose proof (zlen_nonneg data). destruct (Z.ltb_spec 163 (99 + zlen data)); [lia|].
  rewrite eapol_key_build_exact by assumption. rewrite zlen_repeat. destruct (Z.leb_spec (95 + zlen data) 65535); [|lia]. destruct (Z.leb_spec (99 + zlen data) (Z.of_nat 163)); [|lia]. cbn [andb obind].
  set (kb := key_bytes info klen replay nn data). assert (LK : zlen kb = 99 + zlen data) by (apply key_bytes_len; assumption). set (rest := skipn _ _).
  rewrite mread_pre by exact LK. cbn [obind]. destruct (cr_mic c (is_cmac s) (p_kck (h_ptk (x_h s))) kb) as [mic|] eqn:QM; [|eexists _, _; split; [reflexivity|auto]].
  destruct (CM _ _ _ _ QM) as [LM BM].
  assert (SK : kb = part kb 0 81 ++ part kb 81 16 ++ part kb 97 (zlen kb - 97)).
  { rewrite <- (part_all kb (zlen kb) eq_refl) at 1. replace (zlen kb) with (81 + (16 + (zlen kb - 97))) at 1 by lia. rewrite part_split by lia. change (0 + 81) with 81. rewrite part_split by lia. reflexivity. }
  rewrite (mwrite_eq (kb ++ rest) (part kb 0 81) (part kb 81 16) (part kb 97 (zlen kb - 97) ++ rest) mic (4 + 77) (with_mic kb mic ++ rest));
    [|rewrite SK at 1; rewrite <- !app_assoc; reflexivity|rewrite zlen_part by lia; reflexivity|rewrite LM, zlen_part by lia; reflexivity|unfold with_mic; rewrite <- !app_assoc; reflexivity].
  cbn [obind]. destruct (f_send (x_f s)); cbn [negb]; [|eexists _, _; split; [reflexivity|auto]].
  rewrite mread_pre by (unfold with_mic; rewrite !zlen_app, LM, !zlen_part by lia; lia). cbn [obind]. eexists _, _. split; [reflexivity|auto].
Qed.
