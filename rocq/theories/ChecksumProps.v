(** C08: Internet checksum. *)
From Verif Require Import Base Checksum.

(** ** Specification: the byte string, zero padded to even length, read as one
    big-endian integer [N].  Since 2^16 = 1 modulo 65535, RFC 1071's
    ones'-complement sum is zero iff N is a non-zero multiple of 65535. *)
Definition pad_even (b : list Z) : list Z := if Nat.even (length b) then b else b ++ [0].
Definition be_number (b : list Z) : Z := fold_left (fun a x => a * 256 + x) b 0.
Definition ones_complement_valid (b : list Z) : Prop :=
  be_number (pad_even b) <> 0 /\ be_number (pad_even b) mod 65535 = 0.
Definition bytes (b : list Z) : Prop := Forall byte b.
Definition word_at (b : list Z) (off : Z) : Z := zget b off * 256 + zget b (off + 1).

(** ** Word sum *)
Fixpoint wsum (b : list Z) : Z :=
  match b with [] => 0 | [x] => x * 256 | x :: y :: b => x * 256 + y + wsum b end.

Lemma list_pair_ind {A} (P : list A -> Prop) :
  P [] -> (forall x, P [x]) -> (forall x y l, P l -> P (x :: y :: l)) -> forall l, P l.
Proof.
  intros H0 H1 H2. fix IH 1. intros [|x [|y l]]; [assumption|apply H1|apply H2, IH].
Qed.

Lemma wsum_bound b : bytes b -> 0 <= wsum b <= 65535 * ((zlen b + 1) / 2).
Proof.
  induction b as [|x|x y l IH] using list_pair_ind; intros HB.
  - cbn. lia.
  - inversion HB; subst. unfold byte in *. cbn. lia.
  - inversion HB as [|? ? B1 B2]; subst. inversion B2 as [|? ? B3 B4]; subst. unfold byte in *. specialize (IH B4).
    cbn [wsum]. rewrite !zlen_cons. pose proof (zlen_nonneg l).
    replace ((1 + (1 + zlen l) + 1) / 2) with ((zlen l + 1) / 2 + 1) by lia. lia.
Qed.

Lemma sum_words_spec b : bytes b -> forall s, 0 <= s -> s + wsum b < 4294967296 -> sum_words b s = s + wsum b.
Proof.
  induction b as [|x|x y l IH] using list_pair_ind; intros HB s Hs Hb.
  - cbn. lia.
  - inversion HB; subst. unfold byte in *. cbn in *. unfold u32. rewrite Z.mod_small; lia.
  - inversion HB as [|? ? B1 B2]; subst. inversion B2 as [|? ? B3 B4]; subst. unfold byte in *.
    pose proof (wsum_bound l B4). cbn [wsum sum_words] in *.
    assert (E : u32 (s + (x * 256 + y)) = s + (x * 256 + y)) by (unfold u32; rewrite Z.mod_small; lia).
    rewrite E. rewrite IH; [lia|assumption|lia|lia].
Qed.

Lemma shiftr16 s : Z.shiftr s 16 = s / 65536.
Proof. rewrite Z.shiftr_div_pow2 by lia. reflexivity. Qed.
Lemma land16 s : 0 <= s -> Z.land s 65535 = s mod 65536.
Proof. intros. change 65535 with (Z.ones 16). rewrite Z.land_ones by lia. reflexivity. Qed.

(** The fold loop always exits within its bound, and computes the representative
    in 1..65535 of the residue (0 only for 0). *)
Lemma fold_exits s : 0 <= s < 4294967296 ->
  exists r, fold_loop 2 s = Some r /\ 0 <= r <= 65535 /\ (r - s) mod 65535 = 0 /\ (r = 0 <-> s = 0).
Proof.
  intros Hs. cbn [fold_loop]. rewrite !shiftr16.
  destruct (s / 65536 =? 0) eqn:E1.
  - apply Z.eqb_eq in E1. exists s. split; [reflexivity|]. split; [lia|]. rewrite Z.sub_diag. split; [reflexivity|lia].
  - apply Z.eqb_neq in E1. rewrite land16 by lia. set (s1 := s mod 65536 + s / 65536).
    assert (B1 : 0 < s1 <= 131070) by (subst s1; lia).
    assert (U1 : u32 s1 = s1) by (unfold u32; apply Z.mod_small; lia). rewrite U1.
    assert (C1 : exists k, s1 = s - 65535 * k) by (exists (s / 65536); subst s1; lia).
    destruct C1 as [k C1]. rewrite ?shiftr16.
    destruct (s1 / 65536 =? 0) eqn:E2.
    + apply Z.eqb_eq in E2. exists s1. split; [reflexivity|]. split; [lia|]. split; [|lia].
      rewrite C1. replace (s - 65535 * k - s) with ((- k) * 65535) by lia. apply Z.mod_mul. lia.
    + apply Z.eqb_neq in E2. rewrite land16 by lia. set (s2 := s1 mod 65536 + s1 / 65536).
      assert (B2 : 0 < s2 <= 65535) by (subst s2; lia).
      assert (U2 : u32 s2 = s2) by (unfold u32; apply Z.mod_small; lia). rewrite U2.
      destruct (s2 / 65536 =? 0) eqn:E3; [|lia].
      exists s2. split; [reflexivity|]. split; [lia|]. split; [|lia].
      assert (C2 : exists q, s2 = s1 - 65535 * q) by (exists (s1 / 65536); subst s2; lia).
      destruct C2 as [q C2]. rewrite C2, C1.
      replace (s - 65535 * k - 65535 * q - s) with ((- k - q) * 65535) by lia. apply Z.mod_mul. lia.
Qed.

Lemma not16_val r : 0 <= r <= 65535 -> not16 r = 65535 - r.
Proof. intros. unfold not16, u16. unfold Z.lnot. replace (Z.pred (- r)) with (-1 - r) by lia. lia. Qed.

(** [ck s c]: c is the complemented folded sum of s. *)
Lemma fold_not s : 0 <= s < 4294967296 ->
  exists r, fold_loop 2 s = Some r /\ not16 r = 65535 - r /\ 0 <= r <= 65535 /\
            (r - s) mod 65535 = 0 /\ (r = 0 <-> s = 0).
Proof.
  intros Hs. destruct (fold_exits s Hs) as (r & E & B & C & D). exists r. split; [assumption|].
  split; [apply not16_val; assumption|]. auto.
Qed.

Lemma mod_same a b : (a - b) mod 65535 = 0 -> a mod 65535 = b mod 65535.
Proof. lia. Qed.

Lemma checksum_spec b : bytes b -> zlen b <= 65535 ->
  exists c, checksum b = Some c /\ 0 <= c <= 65535 /\
    (c + wsum b) mod 65535 = 0 /\ (c = 65535 <-> wsum b = 0).
Proof.
  intros HB HL. pose proof (wsum_bound b HB) as WB. pose proof (zlen_nonneg b).
  assert (W : 0 <= wsum b < 4294967296) by lia.
  unfold checksum. rewrite sum_words_spec by (assumption || lia). rewrite Z.add_0_l.
  destruct (fold_not (wsum b) W) as (r & E & N & B & C & D). rewrite E. cbn [obind]. rewrite N.
  eexists. split; [reflexivity|]. split; [lia|]. split; [|lia]. clear - C. lia.
Qed.

(** be_number and wsum agree modulo 65535 and on being zero. *)
Lemma be_number_app b : forall a, fold_left (fun a x => a * 256 + x) b a = a * 256 ^ zlen b + be_number b.
Proof.
  unfold be_number. induction b as [|x b IH]; intros a; cbn [fold_left].
  - rewrite zlen_nil. cbn. lia.
  - rewrite IH. rewrite (IH (0 * 256 + x)). rewrite zlen_cons.
    pose proof (zlen_nonneg b). rewrite Z.pow_add_r by lia. lia.
Qed.
Lemma pad_even_cons2 x y b : pad_even (x :: y :: b) = x :: y :: pad_even b.
Proof. unfold pad_even. cbn [length Nat.even]. destruct (Nat.even (length b)); reflexivity. Qed.
Lemma pad_even_even b : exists k, zlen (pad_even b) = 2 * k /\ 0 <= k.
Proof.
  induction b as [|x|x y l IH] using list_pair_ind.
  - exists 0. split; [reflexivity|lia].
  - exists 1. split; [reflexivity|lia].
  - destruct IH as (k & E & Hk). rewrite pad_even_cons2, !zlen_cons, E. exists (k + 1). lia.
Qed.
Lemma pow_65536_mod k : 0 <= k -> exists q, 65536 ^ k = 1 + 65535 * q /\ 0 <= q.
Proof.
  intros Hk. pattern k. apply natlike_ind; [|clear; intros k Hk (q & E & Hq)|assumption].
  - exists 0. cbn. lia.
  - rewrite Z.pow_succ_r by assumption. rewrite E. exists (1 + 65536 * q). lia.
Qed.
Lemma be_number_wsum b : bytes b ->
  (be_number (pad_even b) - wsum b) mod 65535 = 0 /\ (be_number (pad_even b) = 0 <-> wsum b = 0) /\ 0 <= be_number (pad_even b).
Proof.
  induction b as [|x|x y l IH] using list_pair_ind; intros HB.
  - cbn. split; [reflexivity|lia].
  - inversion HB; subst. unfold byte in *. cbn [pad_even length Nat.even app be_number fold_left wsum].
    replace ((0 * 256 + x) * 256 + 0 - x * 256) with 0 by lia. split; [reflexivity|]. cbn. lia.
  - inversion HB as [|? ? B1 B2]; subst. inversion B2 as [|? ? B3 B4]; subst.
    destruct (IH B4) as (I1 & I2 & I3). clear IH. rewrite pad_even_cons2. unfold be_number at 1 2 3.
    cbn [fold_left]. rewrite be_number_app. cbn [wsum].
    destruct (pad_even_even l) as (k & Ek & Hk). rewrite Ek. rewrite Z.pow_mul_r by lia. change (256 ^ 2) with 65536.
    destruct (pow_65536_mod k Hk) as (q & Eq & Hq). rewrite Eq.
    pose proof (wsum_bound l B4). pose proof (zlen_nonneg l). unfold byte in *. set (n := be_number (pad_even l)) in *.
    assert (X : 0 <= (0 * 256 + x) * 256 + y) by lia. set (w := (0 * 256 + x) * 256 + y) in *.
    assert (Ew : x * 256 + y = w) by (subst w; lia). rewrite Ew.
    split; [|split].
    + replace (w * (1 + 65535 * q) + n - (w + wsum l)) with ((n - wsum l) + w * q * 65535) by lia.
      rewrite Z.mod_add by lia. assumption.
    + clear - I2 I3 X Hq H. split; intros E.
      * assert (w = 0) by nia. assert (n = 0) by nia. lia.
      * assert (w = 0) by lia. assert (wsum l = 0) by lia. subst. nia.
    + nia.
Qed.

Lemma wsum_app b1 b2 : Nat.even (length b1) = true -> wsum (b1 ++ b2) = wsum b1 + wsum b2.
Proof.
  induction b1 as [|x|x y l IH] using list_pair_ind; intros HE.
  - reflexivity.
  - discriminate.
  - cbn [app wsum]. rewrite IH by exact HE. lia.
Qed.

(** ** Theorems *)

(** The verification of a received ICMP/IGMP message or header accepts exactly the
    strings whose ones'-complement sum is zero.  The checksum function is total
    (its loop terminates) and returns a 16-bit value. *)
Theorem checksum_accepts_iff_valid b : bytes b -> zlen b <= 65535 ->
  exists c, checksum b = Some c /\ 0 <= c <= 65535 /\ (c = 0 <-> ones_complement_valid b).
Proof.
  intros HB HL. destruct (checksum_spec b HB HL) as (c & E & B & M & Z0).
  exists c. split; [assumption|]. split; [assumption|].
  destruct (be_number_wsum b HB) as (N1 & N2 & N3). unfold ones_complement_valid.
  set (n := be_number (pad_even b)) in *. set (w := wsum b) in *. clearbody n w. split.
  - intros ->. split; [|lia]. intros Hn. assert (w = 0) by (apply N2; assumption). lia.
  - intros [H1 H2]. assert (w <> 0) by (rewrite <- N2; assumption). lia.
Qed.

(** The pseudo-header form is the plain checksum of pseudo header followed by data. *)
Theorem transport_is_checksum_of_concat ph d : bytes ph -> bytes d -> zlen ph = 12 -> zlen d <= 65535 - 12 ->
  transport_checksum ph d = checksum (ph ++ d).
Proof.
  intros HP HD LP LD. unfold transport_checksum, checksum.
  pose proof (wsum_bound ph HP) as W1. pose proof (wsum_bound d HD) as W2. pose proof (zlen_nonneg d).
  rewrite LP in W1. change ((12 + 1) / 2) with 6 in W1.
  assert (HPD : bytes (ph ++ d)) by (apply Forall_app; auto).
  assert (HE : Nat.even (length ph) = true).
  { unfold zlen in LP. replace (length ph) with 12%nat by lia. reflexivity. }
  rewrite (sum_words_spec ph HP 0) by lia.
  rewrite (sum_words_spec d HD) by lia. rewrite (sum_words_spec (ph ++ d) HPD) by (rewrite ?wsum_app by assumption; lia).
  rewrite wsum_app by assumption. reflexivity.
Qed.

(** wsum of a buffer in which an aligned word was replaced. *)
Lemma be16_bytes v : bytes (be16 v).
Proof. unfold be16. repeat constructor; unfold byte; lia. Qed.
Lemma be16_val v : 0 <= v <= 65535 -> wsum (be16 v) = v.
Proof. intros. unfold be16. cbn [wsum]. rewrite Z.shiftr_div_pow2 by lia. change (2 ^ 8) with 256. lia. Qed.

Lemma put16_split b off (v : Z) : 0 <= off -> off + 2 <= zlen b -> off mod 2 = 0 ->
  exists p x y q, b = p ++ [x; y] ++ q /\ zlen p = off /\ Nat.even (length p) = true /\
     (forall v, put16 b off v = Some (p ++ be16 v ++ q)) /\ word_at b off = x * 256 + y.
Proof.
  intros H0 H1 H2. 
  destruct (mread_in b 0 off) as [p Hp]; [lia..|].
  destruct (mread_in b off 2) as [w Hw]; [lia..|].
  destruct (mread_in b (off + 2) (zlen b - (off + 2))) as [q Hq]; [lia..|].
  pose proof (mread_some _ _ _ _ Hp) as (_ & _ & _ & Lp). pose proof (mread_some _ _ _ _ Hw) as (_ & _ & _ & Lw).
  pose proof (mread_some _ _ _ _ Hq) as (_ & _ & _ & Lq).
  destruct w as [|x [|y [|]]]; rewrite ?zlen_cons, ?zlen_nil in Lw; try lia.
  2:{ pose proof (zlen_nonneg l). lia. }
  assert (EB : b = p ++ [x; y] ++ q).
  { pose proof (mread_app _ _ _ _ _ _ Hw Hq) as E. pose proof (mread_app _ _ _ _ _ _ Hp E) as E2.
    replace (off + (2 + (zlen b - (off + 2)))) with (zlen b) in E2 by lia. rewrite mread_full in E2. congruence. }
  exists p, x, y, q. split; [assumption|]. split; [assumption|].
  assert (EP : Nat.even (length p) = true).
  { rewrite Nat.even_spec. exists (Z.to_nat (off / 2)). unfold zlen in Lp. lia. }
  split; [assumption|]. split.
  - intros v'. unfold put16, mwrite. assert (L2 : zlen (be16 v') = 2) by reflexivity. rewrite L2.
    destruct ((0 <=? off) && (off + 2 <=? zlen b)) eqn:E; [|lia]. f_equal. rewrite EB.
    assert (Hn : Z.to_nat off = length p) by (unfold zlen in Lp; lia). rewrite Hn.
    rewrite firstn_app, Nat.sub_diag, firstn_O, app_nil_r, firstn_all. f_equal. f_equal.
    replace (Z.to_nat (off + 2)) with (length (p ++ [x; y])) by (rewrite app_length; cbn; lia).
    rewrite app_assoc. rewrite skipn_app, Nat.sub_diag, skipn_all. reflexivity.
  - unfold word_at, zget. rewrite EB.
    assert (Hn : Z.to_nat off = length p) by (unfold zlen in Lp; lia).
    replace (Z.to_nat (off + 1)) with (length p + 1)%nat by lia. rewrite Hn.
    rewrite (app_nth2 p _ 0 (n := length p)) by lia. rewrite (app_nth2 p _ 0 (n := length p + 1)) by lia.
    rewrite Nat.sub_diag. replace (length p + 1 - length p)%nat with 1%nat by lia. reflexivity.
Qed.

Lemma bytes_parts p x y q : bytes (p ++ [x; y] ++ q) -> bytes p /\ bytes q /\ byte x /\ byte y.
Proof.
  intros H. apply Forall_app in H as [H1 H2]. apply Forall_app in H2 as [H2 H3].
  inversion H2 as [|? ? B1 B2]; subst. inversion B2; subst. unfold bytes. auto.
Qed.

Lemma zero_sum p q v : bytes p -> bytes q -> 0 <= v <= 65535 -> Nat.even (length p) = true ->
  wsum (p ++ be16 v ++ q) = wsum p + v + wsum q.
Proof.
  intros. rewrite wsum_app by assumption. rewrite wsum_app by reflexivity. rewrite be16_val by assumption. lia.
Qed.

Lemma bytes_put p q v : bytes p -> bytes q -> bytes (p ++ be16 v ++ q).
Proof. intros. unfold bytes. apply Forall_app. split; [assumption|]. apply Forall_app. split; [apply be16_bytes|assumption]. Qed.

Lemma zget_other p q x y c i : 0 <= i -> i <> zlen p -> i <> zlen p + 1 ->
  zget (p ++ be16 c ++ q) i = zget (p ++ [x; y] ++ q) i.
Proof.
  intros Hi Hi1 Hi2. unfold zget. destruct (Z.lt_ge_cases i (zlen p)) as [Hlt|Hge].
  - rewrite !app_nth1 by (unfold zlen in *; lia). reflexivity.
  - rewrite (app_nth2 p (be16 c ++ q)) by (unfold zlen in *; lia).
    rewrite (app_nth2 p ([x; y] ++ q)) by (unfold zlen in *; lia).
    assert (HH : (2 <= Z.to_nat i - length p)%nat) by (unfold zlen in *; lia).
    destruct (Z.to_nat i - length p)%nat as [|[|n]]; [lia..|]. reflexivity.
Qed.

(** What the stack fills in verifies: ICMP / IGMP. *)
Theorem filled_checksum_verifies b off : bytes b -> zlen b <= 65535 -> 0 <= off -> off mod 2 = 0 -> off + 2 <= zlen b ->
  exists b', fill_checksum b off = Some b' /\ checksum b' = Some 0 /\ zlen b' = zlen b /\
    (forall i, i <> off -> i <> off + 1 -> 0 <= i -> zget b' i = zget b i).
Proof.
  intros HB HL H0 H1 H2. destruct (put16_split b off 0 H0 H2 H1) as (p & x & y & q & EB & Lp & EP & HPUT & _).
  rewrite EB in HB. destruct (bytes_parts _ _ _ _ HB) as (Bp & Bq & Bx & By).
  unfold fill_checksum. rewrite HPUT. cbn [obind].
  assert (LB : forall v, zlen (p ++ be16 v ++ q) = zlen b).
  { intros v. rewrite EB, !zlen_app. reflexivity. }
  pose proof (bytes_put p q 0 Bp Bq) as B0.
  destruct (checksum_spec _ B0 ltac:(rewrite LB; assumption)) as (c & Ec & Cb & Cm & Cz). rewrite Ec. cbn [obind].
  assert (H2' : off + 2 <= zlen (p ++ be16 0 ++ q)) by (rewrite LB; assumption).
  assert (PUT2 : put16 (p ++ be16 0 ++ q) off c = Some (p ++ be16 c ++ q)).
  { destruct (put16_split (p ++ be16 0 ++ q) off c H0 H2' H1) as (p2 & x2 & y2 & q2 & EB2 & Lp2 & _ & HPUT2 & _).
    rewrite HPUT2. assert (length p2 = length p) by (unfold zlen in *; lia).
    pose proof (f_equal (firstn (length p)) EB2) as F. rewrite <- H in F at 2.
    rewrite !firstn_app, !Nat.sub_diag, !firstn_O, !app_nil_r, !firstn_all in F. subst p2.
    apply app_inv_head in EB2. cbn in EB2. injection EB2 as _ _ ->. reflexivity. }
  exists (p ++ be16 c ++ q). split; [exact PUT2|].
  pose proof (bytes_put p q c Bp Bq) as B1.
  destruct (checksum_spec _ B1 ltac:(rewrite LB; assumption)) as (d & Ed & Db & Dm & Dz).
  split; [|split; [apply LB|]].
  - rewrite Ed. f_equal. rewrite (zero_sum p q c Bp Bq Cb EP) in Dm, Dz. assert (Z0 : 0 <= 0 <= 65535) by (clear; lia). rewrite (zero_sum p q 0 Bp Bq Z0 EP) in Cm, Cz.
    pose proof (wsum_bound p Bp). pose proof (wsum_bound q Bq). clear - Cm Cz Dm Dz Cb Db H H3. 
    set (P := wsum p) in *. set (Q := wsum q) in *. clearbody P Q.
    assert (0 <= P /\ 0 <= Q) by lia. clear H H3. lia.
  - intros i Hi1 Hi2 Hi. rewrite EB. apply zget_other; lia.
Qed.

(** Corruption: replacing one aligned word by a value different modulo 65535
    makes a valid string invalid (and 0x0000 <-> 0xFFFF is the only undetected change). *)
Theorem single_word_corruption_detected b b' off v : bytes b -> zlen b <= 65535 ->
  0 <= off -> off mod 2 = 0 -> off + 2 <= zlen b -> 0 <= v <= 65535 ->
  checksum b = Some 0 -> put16 b off v = Some b' -> checksum b' = Some 0 ->
  word_at b off = v \/ (word_at b off = 0 /\ v = 65535) \/ (word_at b off = 65535 /\ v = 0).
Proof.
  intros HB HL H0 H1 H2 Hv HC HP HC'.
  destruct (put16_split b off v H0 H2 H1) as (p & x & y & q & EB & Lp & EP & HPUT & HW).
  rewrite HPUT in HP. assert (EB' : b' = p ++ be16 v ++ q) by congruence. subst b'. rewrite HW.
  destruct (checksum_spec b HB HL) as (c & Ec & _ & Cm & _). rewrite HC in Ec. injection Ec as <-.
  rewrite EB in HB. destruct (bytes_parts _ _ _ _ HB) as (Bp & Bq & Bx & By).
  pose proof (bytes_put p q v Bp Bq) as B1.
  assert (LB : zlen (p ++ be16 v ++ q) = zlen b) by (rewrite EB, !zlen_app; reflexivity).
  destruct (checksum_spec _ B1 ltac:(rewrite LB; assumption)) as (d & Ed & _ & Dm & _). rewrite HC' in Ed. injection Ed as <-.
  rewrite (zero_sum p q v Bp Bq Hv EP) in Dm. rewrite EB in Cm. rewrite wsum_app in Cm by assumption. cbn [wsum app] in Cm.
  unfold byte in *. lia.
Qed.

(** The same for the pseudo-header checksums of TCP and UDP. *)
Theorem filled_transport_verifies ph b off : bytes ph -> zlen ph = 12 -> bytes b -> zlen b <= 65535 - 12 ->
  0 <= off -> off mod 2 = 0 -> off + 2 <= zlen b ->
  (exists b', fill_transport ph b off = Some b' /\ transport_verify ph b' = Some true /\ zlen b' = zlen b) /\
  (exists b', fill_udp ph b off = Some b' /\ transport_verify ph b' = Some true /\ zlen b' = zlen b /\
              (word_at b' off <> 0)).
Proof.
  intros HPh LPh HB HL H0 H1 H2. destruct (put16_split b off 0 H0 H2 H1) as (p & x & y & q & EB & Lp & EP & HPUT & _).
  rewrite EB in HB. destruct (bytes_parts _ _ _ _ HB) as (Bp & Bq & Bx & By).
  assert (LB : forall v, zlen (p ++ be16 v ++ q) = zlen b).
  { intros v. rewrite EB, !zlen_app. reflexivity. }
  assert (PUT2 : forall c, put16 (p ++ be16 0 ++ q) off c = Some (p ++ be16 c ++ q)).
  { intros c. destruct (put16_split (p ++ be16 0 ++ q) off c H0 ltac:(rewrite LB; assumption) H1) as (p2 & x2 & y2 & q2 & EB2 & Lp2 & _ & HPUT2 & _).
    rewrite HPUT2. assert (length p2 = length p) by (unfold zlen in *; lia).
    pose proof (f_equal (firstn (length p)) EB2) as F. rewrite <- H in F at 2.
    rewrite !firstn_app, !Nat.sub_diag, !firstn_O, !app_nil_r, !firstn_all in F. subst p2.
    apply app_inv_head in EB2. cbn in EB2. injection EB2 as _ _ ->. reflexivity. }
  assert (HE : Nat.even (length ph) = true).
  { unfold zlen in LPh. replace (length ph) with 12%nat by lia. reflexivity. }
  assert (WT : forall v, 0 <= v <= 65535 -> exists c, transport_checksum ph (p ++ be16 v ++ q) = Some c /\ 0 <= c <= 65535 /\
      (c + (wsum ph + (wsum p + v + wsum q))) mod 65535 = 0 /\ (c = 65535 <-> wsum ph + (wsum p + v + wsum q) = 0)).
  { intros v Hv. pose proof (bytes_put p q v Bp Bq) as B0.
    rewrite transport_is_checksum_of_concat; [|assumption|assumption|assumption|rewrite LB; assumption].
    destruct (checksum_spec (ph ++ p ++ be16 v ++ q)) as (c & Ec & Cb & Cm & Cz).
    - apply Forall_app; auto.
    - rewrite zlen_app, LB. lia.
    - rewrite (wsum_app ph _ HE), (zero_sum p q v Bp Bq Hv EP) in Cm, Cz. exists c. auto. }
  pose proof (wsum_bound ph HPh) as W1. pose proof (wsum_bound p Bp) as W2. pose proof (wsum_bound q Bq) as W3.
  assert (HWW : 0 <= wsum ph + (wsum p + wsum q)) by lia. clear W1 W2 W3.
  destruct (WT 0 ltac:(lia)) as (c & Ec & Cb & Cm & Cz).
  split.
  - unfold fill_transport. rewrite HPUT. cbn [obind]. rewrite Ec. cbn [obind]. rewrite PUT2. eexists. split; [reflexivity|].
    split; [|apply LB]. unfold transport_verify. destruct (WT c Cb) as (d & Ed & Db & Dm & Dz). rewrite Ed. cbn [obind].
    f_equal. apply Z.eqb_eq. lia.
  - unfold fill_udp. rewrite HPUT. cbn [obind]. rewrite Ec. cbn [obind]. rewrite PUT2. eexists. split; [reflexivity|].
    set (c' := if c =? 0 then 65535 else c). assert (Hc' : 0 < c' <= 65535 /\ (c' = c \/ (c = 0 /\ c' = 65535))).
    { subst c'. destruct (c =? 0) eqn:Q; lia. } clearbody c'.
    split; [|split; [apply LB|]].
    + unfold transport_verify. destruct (WT c' ltac:(lia)) as (d & Ed & Db & Dm & Dz). rewrite Ed. cbn [obind].
      f_equal. apply Z.eqb_eq. lia.
    + destruct (put16_split (p ++ be16 c' ++ q) off 0 H0 ltac:(rewrite LB; assumption) H1) as (p2 & x2 & y2 & q2 & EB2 & Lp2 & _ & _ & HW).
      rewrite HW. assert (length p2 = length p) by (unfold zlen in *; lia).
      pose proof (f_equal (firstn (length p)) EB2) as F. rewrite <- H in F at 2.
      rewrite !firstn_app, !Nat.sub_diag, !firstn_O, !app_nil_r, !firstn_all in F. subst p2.
      apply app_inv_head in EB2. cbn in EB2. injection EB2 as <- <- _.
      pose proof (be16_val c' ltac:(lia)) as BV. cbn [wsum be16] in BV. lia.
Qed.

(** The same for the IPv4 header: after the setter, the header verifies if it is
    an IPv4 header (version 4, IHL at least 5) and nothing but the checksum field
    has changed; no byte outside the header is accessed. *)
Theorem ip_header_checksum_verifies ip : bytes ip -> 20 <= zlen ip -> ihl_bytes (zget ip 0) <= zlen ip ->
  exists ip', iphdr_set_checksum ip = Some ip' /\ zlen ip' = zlen ip /\
    (forall i, 0 <= i -> i <> 10 -> i <> 11 -> zget ip' i = zget ip i) /\
    (Z.shiftr (zget ip 0) 4 = 4 -> 20 <= ihl_bytes (zget ip 0) -> iphdr_verify_checksum ip' = Some true).
Proof.
  intros HB HL HI.
  destruct (put16_split ip 10 0 ltac:(lia) ltac:(lia) eq_refl) as (p & x & y & q & EB & Lp & EP & HPUT & _).
  assert (R0 : mread ip 0 1 = Some [zget ip 0]).
  { destruct ip as [|a l]; [cbn in HL; lia|]. unfold mread. rewrite zlen_cons in *.
    destruct ((0 <=? 0) && (0 <=? 1) && (0 + 1 <=? 1 + zlen l)) eqn:E; [reflexivity|lia]. }
  unfold iphdr_set_checksum. rewrite R0. cbn [obind zget nth Z.to_nat]. change (nth (Z.to_nat 0) [zget ip 0] 0) with (zget ip 0).
  set (v := zget ip 0) in *. assert (Hv : 0 <= ihl_bytes v <= 60 /\ ihl_bytes v mod 4 = 0).
  { unfold ihl_bytes. change 15 with (Z.ones 4). rewrite Z.land_ones by lia. change (2 ^ 4) with 16. lia. }
  set (h := if ihl_bytes v <? 20 then 20 else ihl_bytes v).
  assert (Hh : 20 <= h <= 60 /\ h mod 4 = 0 /\ h <= zlen ip /\ (20 <= ihl_bytes v -> ihl_bytes v = h)).
  { subst h. destruct (ihl_bytes v <? 20) eqn:Q; lia. } clearbody h.
  rewrite HPUT. cbn [obind]. pose proof HB as HB0. rewrite EB in HB. destruct (bytes_parts _ _ _ _ HB) as (Bp & Bq & Bx & By).
  assert (LB : forall v, zlen (p ++ be16 v ++ q) = zlen ip).
  { intros v'. rewrite EB, !zlen_app. reflexivity. }
  assert (Lq : zlen q = zlen ip - 12).
  { pose proof (LB 0) as G. rewrite !zlen_app in G. change (zlen (be16 0)) with 2 in G. lia. }
  set (q1 := firstn (Z.to_nat (h - 12)) q).
  assert (RH : forall v', mread (p ++ be16 v' ++ q) 0 h = Some (p ++ be16 v' ++ q1)).
  { intros v'. unfold mread. rewrite LB.
    destruct ((0 <=? 0) && (0 <=? h) && (0 + h <=? zlen ip)) eqn:E; [|lia]. f_equal.
    cbn [skipn Z.to_nat]. rewrite firstn_app. unfold zlen in Lp, Lq.
    rewrite firstn_all2 by lia. f_equal. rewrite firstn_app. cbn [be16 length].
    rewrite (firstn_all2 (n := Z.to_nat h - length p)) by (cbn; lia). f_equal. subst q1. f_equal. lia. }
  rewrite RH. cbn [obind].
  assert (Bq1 : bytes q1).
  { subst q1. unfold bytes in *. rewrite <- (firstn_skipn (Z.to_nat (h - 12)) q) in Bq. apply Forall_app in Bq. tauto. }
  assert (LH : forall v', zlen (p ++ be16 v' ++ q1) = h).
  { intros v'. pose proof (mread_some _ _ _ _ (RH v')) as (_ & _ & _ & G). exact G. }
  assert (SW : forall v', 0 <= v' <= 65535 -> sum_words (p ++ be16 v' ++ q1) 0 = wsum p + v' + wsum q1 /\ 0 <= wsum p + v' + wsum q1 < 4294967296).
  { intros v' Hv'. pose proof (bytes_put p q1 v' Bp Bq1) as B0. pose proof (wsum_bound _ B0) as WB. rewrite LH in WB.
    rewrite sum_words_spec by (assumption || lia). rewrite (zero_sum p q1 v' Bp Bq1 Hv' EP) in *. lia. }
  destruct (SW 0 ltac:(lia)) as [S0 S0b]. rewrite S0.
  destruct (fold_not _ S0b) as (r & Er & Nr & Br & Cr & Dr). rewrite Er. cbn [obind]. rewrite Nr.
  set (c := 65535 - r) in *. assert (Cb : 0 <= c <= 65535) by (subst c; lia).
  assert (PUT2 : put16 (p ++ be16 0 ++ q) 10 c = Some (p ++ be16 c ++ q)).
  { destruct (put16_split (p ++ be16 0 ++ q) 10 c ltac:(lia) ltac:(rewrite LB; lia) eq_refl) as (p2 & x2 & y2 & q2 & EB2 & Lp2 & _ & HPUT2 & _).
    rewrite HPUT2. assert (length p2 = length p) by (unfold zlen in *; lia).
    pose proof (f_equal (firstn (length p)) EB2) as F. rewrite <- H in F at 2.
    rewrite !firstn_app, !Nat.sub_diag, !firstn_O, !app_nil_r, !firstn_all in F. subst p2.
    apply app_inv_head in EB2. cbn in EB2. injection EB2 as _ _ ->. reflexivity. }
  assert (Same : forall i, 0 <= i -> i <> 10 -> i <> 11 -> zget (p ++ be16 c ++ q) i = zget ip i).
  { intros i Hi Hi1 Hi2. rewrite EB. apply zget_other; lia. }
  exists (p ++ be16 c ++ q). split; [exact PUT2|]. split; [apply LB|]. split; [exact Same|].
  intros Hver Hihl. unfold iphdr_verify_checksum.
  assert (R1 : mread (p ++ be16 c ++ q) 0 1 = Some [v]).
  { destruct (mread_in (p ++ be16 c ++ q) 0 1) as [w Hw]; [lia|lia|rewrite LB; lia|]. rewrite Hw. f_equal.
    pose proof (mread_some _ _ _ _ Hw) as (_ & _ & _ & Lw). destruct w as [|a [|b w]].
    - cbn in Lw. lia.
    - f_equal. assert (Same0 : zget (p ++ be16 c ++ q) 0 = zget ip 0) by (apply Same; clear; lia).
      pose proof (mread_nth _ _ _ _ 0 Hw) as G. change (Z.of_nat 0 <? 1) with true in G. cbv iota in G.
      change v with (zget ip 0). rewrite <- Same0. unfold zget. symmetry. apply nth_error_nth. symmetry. exact G.
    - rewrite !zlen_cons in Lw. pose proof (zlen_nonneg w). lia. }
  rewrite R1. cbn [obind]. change (zget [v] 0) with v.
  destruct (negb (Z.shiftr v 4 =? 4)) eqn:Q; [lia|].
  destruct (ihl_bytes v <? 20) eqn:Q2; [lia|].
  replace (ihl_bytes v) with h by (destruct Hh as (_ & _ & _ & G); symmetry; apply G; assumption).
  rewrite RH. cbn [obind]. destruct (SW c Cb) as [S1 S1b]. rewrite S1.
  destruct (fold_exits _ S1b) as (r1 & Er1 & Br1 & Cr1 & Dr1). rewrite Er1. cbn [obind]. f_equal. apply Z.eqb_eq.
  unfold u16. pose proof (wsum_bound p Bp). pose proof (wsum_bound q1 Bq1). pose proof (zlen_nonneg p). pose proof (zlen_nonneg q1).
  assert (HP0 : 0 <= wsum p /\ 0 <= wsum q1) by lia.
  clear - Br1 Cr1 Dr1 Br Cr Dr HP0. subst c. set (P := wsum p) in *. set (Q := wsum q1) in *. clearbody P Q. lia.
Qed.

Print Assumptions checksum_accepts_iff_valid.
Print Assumptions transport_is_checksum_of_concat.
Print Assumptions filled_checksum_verifies.
Print Assumptions single_word_corruption_detected.
Print Assumptions filled_transport_verifies.
Print Assumptions ip_header_checksum_verifies.

(** Non-vacuity: a real IPv4 header (RFC 1071 style example). *)
Definition ex_hdr : list Z := [69;0;0;115;0;0;64;0;64;17;0;0;192;168;0;1;192;168;0;199].
Example ex_hdr_set : exists h, iphdr_set_checksum ex_hdr = Some h /\ zget h 10 = 184 /\ zget h 11 = 97 /\ iphdr_verify_checksum h = Some true.
Proof. eexists. split; [reflexivity|]. repeat split. Qed.
Example ex_odd : exists b, fill_checksum [8;0;0;0;1;2;3] 2 = Some b /\ checksum b = Some 0 /\ zget b 2 = 243 /\ zget b 3 = 253.
Proof. eexists. split; [reflexivity|]. repeat split. Qed.
