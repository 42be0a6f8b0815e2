(** Base definitions shared by all models: C integer wrap-around, byte
    buffers with checked (UB-detecting) accesses. *)
From Coq Require Export ZArith List Lia Bool.
From Coq Require Export ZifyBool ZifyNat.
Export ListNotations.
Open Scope Z_scope.

Ltac Zify.zify_post_hook ::= Z.div_mod_to_equations.

(** ** C unsigned integer conversions (ISO C 6.3.1.3: reduction modulo 2^N). *)
Definition u8 (x : Z) : Z := x mod 256.
Definition u16 (x : Z) : Z := x mod 65536.
Definition u32 (x : Z) : Z := x mod 4294967296.
Definition u64 (x : Z) : Z := x mod 18446744073709551616.

(** Conversion to int32_t (two's complement, as every supported compiler does). *)
Definition s32 (x : Z) : Z :=
  let y := x mod 4294967296 in
  if y <? 2147483648 then y else y - 4294967296.

(** ** Byte buffers *)
Definition byte (x : Z) : Prop := 0 <= x < 256.
Definition zlen {A} (l : list A) : Z := Z.of_nat (length l).

(** Checked read of [len] bytes at [pos]: [None] is an out-of-bounds access,
    i.e. undefined behaviour in C. *)
Definition mread {A} (m : list A) (pos len : Z) : option (list A) :=
  if (0 <=? pos) && (0 <=? len) && (pos + len <=? zlen m)
  then Some (firstn (Z.to_nat len) (skipn (Z.to_nat pos) m))
  else None.

(** Checked write (memcpy into the buffer). *)
Definition mwrite {A} (m : list A) (pos : Z) (bs : list A) : option (list A) :=
  if (0 <=? pos) && (pos + zlen bs <=? zlen m)
  then Some (firstn (Z.to_nat pos) m ++ bs ++ skipn (Z.to_nat (pos + zlen bs)) m)
  else None.

(** Unchecked single element access with a default, only used under a guard. *)
Definition zget (m : list Z) (i : Z) : Z := nth (Z.to_nat i) m 0.

(** Option monad. *)
Definition obind {A B} (x : option A) (f : A -> option B) : option B :=
  match x with Some a => f a | None => None end.
Notation "'do' x <- e ; k" := (obind e (fun x => k))
  (at level 200, x pattern, e at level 100, k at level 200, only parsing).

(** ** Lemmas *)
Lemma zlen_nonneg {A} (l : list A) : 0 <= zlen l.
Proof. unfold zlen; lia. Qed.
Lemma zlen_app {A} (l1 l2 : list A) : zlen (l1 ++ l2) = zlen l1 + zlen l2.
Proof. unfold zlen; rewrite app_length; lia. Qed.
Lemma zlen_nil {A} : zlen (@nil A) = 0.
Proof. reflexivity. Qed.
Lemma zlen_cons {A} (x : A) l : zlen (x :: l) = 1 + zlen l.
Proof. unfold zlen; cbn [length]; lia. Qed.
Lemma zlen_zero {A} (l : list A) : zlen l = 0 -> l = [].
Proof. destruct l; [reflexivity|]. rewrite zlen_cons. pose proof (zlen_nonneg l). lia. Qed.

Lemma nth_error_skipn {A} (m : list A) : forall p i, nth_error (skipn p m) i = nth_error m (p + i)%nat.
Proof.
  induction m as [|a m IH]; intros p i.
  - rewrite skipn_nil. destruct i, p; reflexivity.
  - destruct p; [reflexivity|]. cbn [skipn plus nth_error]. apply IH.
Qed.
Lemma nth_error_firstn_lt {A} (m : list A) : forall n i, (i < n)%nat -> nth_error (firstn n m) i = nth_error m i.
Proof.
  induction m as [|a m IH]; intros n i H.
  - rewrite firstn_nil. reflexivity.
  - destruct n; [lia|]. destruct i; [reflexivity|]. cbn. apply IH. lia.
Qed.
Lemma nth_error_firstn_ge {A} (m : list A) n i : (n <= i)%nat -> nth_error (firstn n m) i = None.
Proof. intros H. apply nth_error_None. rewrite firstn_length. lia. Qed.
Lemma nth_error_ext {A} (l1 l2 : list A) : (forall i, nth_error l1 i = nth_error l2 i) -> l1 = l2.
Proof.
  revert l2; induction l1 as [|a l1 IH]; intros [|b l2] H; try reflexivity.
  - specialize (H O); discriminate.
  - specialize (H O); discriminate.
  - f_equal; [specialize (H O); cbn in H; congruence|].
    apply IH. intros i. apply (H (S i)).
Qed.

Lemma mread_some {A} (m : list A) pos len bs : mread m pos len = Some bs ->
  0 <= pos /\ 0 <= len /\ pos + len <= zlen m /\ zlen bs = len.
Proof.
  unfold mread. intros H.
  destruct ((0 <=? pos) && (0 <=? len) && (pos + len <=? zlen m)) eqn:E; [|discriminate].
  injection H as <-. unfold zlen in *. rewrite firstn_length, skipn_length. lia.
Qed.
Lemma mread_in {A} (m : list A) pos len : 0 <= pos -> 0 <= len -> pos + len <= zlen m ->
  exists bs, mread m pos len = Some bs.
Proof.
  intros. unfold mread.
  destruct ((0 <=? pos) && (0 <=? len) && (pos + len <=? zlen m)) eqn:E; [eauto|lia].
Qed.
Lemma mwrite_some {A} (m m' : list A) pos bs : mwrite m pos bs = Some m' ->
  0 <= pos /\ pos + zlen bs <= zlen m /\ zlen m' = zlen m.
Proof.
  unfold mwrite. intros H.
  destruct ((0 <=? pos) && (pos + zlen bs <=? zlen m)) eqn:E; [|discriminate].
  injection H as <-. rewrite !zlen_app. unfold zlen in *. rewrite firstn_length, skipn_length. lia.
Qed.
Lemma mwrite_in {A} (m : list A) pos bs : 0 <= pos -> pos + zlen bs <= zlen m ->
  exists m', mwrite m pos bs = Some m'.
Proof.
  intros. unfold mwrite.
  destruct ((0 <=? pos) && (pos + zlen bs <=? zlen m)) eqn:E; [eauto|lia].
Qed.

Lemma mwrite_nth {A} (m m' : list A) pos bs i : mwrite m pos bs = Some m' ->
  nth_error m' i = if (Z.of_nat i <? pos) || (pos + zlen bs <=? Z.of_nat i) then nth_error m i
                   else nth_error bs (i - Z.to_nat pos).
Proof.
  intros H. pose proof (mwrite_some _ _ _ _ H) as (Hp & Hb & _).
  unfold mwrite in H.
  destruct ((0 <=? pos) && (pos + zlen bs <=? zlen m)) eqn:E; [|discriminate].
  injection H as <-.
  assert (Hf : length (firstn (Z.to_nat pos) m) = Z.to_nat pos).
  { rewrite firstn_length. unfold zlen in *. lia. }
  destruct (Z.of_nat i <? pos) eqn:E1; cbn [orb].
  - rewrite nth_error_app1 by lia. apply nth_error_firstn_lt. lia.
  - rewrite nth_error_app2 by lia. rewrite Hf.
    destruct (pos + zlen bs <=? Z.of_nat i) eqn:E2.
    + unfold zlen in *. rewrite nth_error_app2 by lia. rewrite nth_error_skipn. f_equal. lia.
    + unfold zlen in *. rewrite nth_error_app1 by lia. reflexivity.
Qed.
Lemma mread_nth {A} (m bs : list A) pos len i : mread m pos len = Some bs ->
  nth_error bs i = if Z.of_nat i <? len then nth_error m (Z.to_nat pos + i) else None.
Proof.
  intros H. pose proof (mread_some _ _ _ _ H) as (Hp & Hl & Hb & Hz).
  unfold mread in H.
  destruct ((0 <=? pos) && (0 <=? len) && (pos + len <=? zlen m)) eqn:E; [|discriminate].
  injection H as <-.
  destruct (Z.of_nat i <? len) eqn:E1.
  - rewrite nth_error_firstn_lt by lia. apply nth_error_skipn.
  - apply nth_error_firstn_ge. lia.
Qed.

Lemma mread_ext {A} (m m' : list A) pos len bs :
  mread m pos len = Some bs -> zlen m' = zlen m ->
  (forall i, pos <= Z.of_nat i < pos + len -> nth_error m' i = nth_error m i) ->
  mread m' pos len = Some bs.
Proof.
  intros H HL HE. pose proof (mread_some _ _ _ _ H) as (Hp & Hl & Hb & Hz).
  destruct (mread_in m' pos len) as [bs' H']; [lia..|].
  rewrite H'. f_equal. apply nth_error_ext. intros i.
  rewrite (mread_nth _ _ _ _ i H), (mread_nth _ _ _ _ i H').
  destruct (Z.of_nat i <? len) eqn:E; [|reflexivity]. apply HE. lia.
Qed.

Lemma mread_mwrite_disj {A} (m m' : list A) pos bs q n x :
  mwrite m pos bs = Some m' -> mread m q n = Some x ->
  q + n <= pos \/ pos + zlen bs <= q -> mread m' q n = Some x.
Proof.
  intros Hw Hr HD. pose proof (mwrite_some _ _ _ _ Hw) as (? & ? & ?).
  eapply mread_ext; [exact Hr|assumption|]. intros i Hi.
  rewrite (mwrite_nth _ _ _ _ i Hw).
  destruct ((Z.of_nat i <? pos) || (pos + zlen bs <=? Z.of_nat i)) eqn:E; [reflexivity|lia].
Qed.
Lemma mread_mwrite_same {A} (m m' : list A) pos bs :
  mwrite m pos bs = Some m' -> mread m' pos (zlen bs) = Some bs.
Proof.
  intros Hw. pose proof (mwrite_some _ _ _ _ Hw) as (? & ? & ?).
  pose proof (zlen_nonneg bs).
  destruct (mread_in m' pos (zlen bs)) as [bs' H']; [lia..|].
  rewrite H'. f_equal. apply nth_error_ext. intros i.
  rewrite (mread_nth _ _ _ _ i H').
  rewrite (mwrite_nth _ _ _ _ _ Hw).
  destruct (Z.of_nat i <? zlen bs) eqn:E.
  - destruct ((Z.of_nat (Z.to_nat pos + i) <? pos) || (pos + zlen bs <=? Z.of_nat (Z.to_nat pos + i))) eqn:E2; [lia|].
    f_equal. lia.
  - symmetry. apply nth_error_None. unfold zlen in *. lia.
Qed.
(** Reading two adjacent ranges. *)
Lemma mread_app {A} (m : list A) pos n1 n2 x y :
  mread m pos n1 = Some x -> mread m (pos + n1) n2 = Some y ->
  mread m pos (n1 + n2) = Some (x ++ y).
Proof.
  intros H1 H2. pose proof (mread_some _ _ _ _ H1) as (? & ? & ? & Z1).
  pose proof (mread_some _ _ _ _ H2) as (? & ? & ? & Z2).
  destruct (mread_in m pos (n1 + n2)) as [b Hb]; [lia..|].
  rewrite Hb. f_equal. apply nth_error_ext. intros i.
  rewrite (mread_nth _ _ _ _ i Hb).
  destruct (Z.of_nat i <? n1) eqn:E.
  - rewrite nth_error_app1 by (unfold zlen in *; lia).
    rewrite (mread_nth _ _ _ _ i H1), E.
    destruct (Z.of_nat i <? n1 + n2) eqn:E2; [reflexivity|lia].
  - rewrite nth_error_app2 by (unfold zlen in *; lia).
    rewrite (mread_nth _ _ _ _ _ H2). unfold zlen in *.
    destruct (Z.of_nat i <? n1 + n2) eqn:E2;
    destruct (Z.of_nat (i - length x) <? n2) eqn:E3; try lia; [|reflexivity].
    f_equal. lia.
Qed.
Lemma mread_split {A} (m : list A) pos n1 n2 z :
  0 <= n1 -> 0 <= n2 -> mread m pos (n1 + n2) = Some z ->
  mread m pos n1 = Some (firstn (Z.to_nat n1) z) /\ mread m (pos + n1) n2 = Some (skipn (Z.to_nat n1) z).
Proof.
  intros Hn1 Hn2 H. pose proof (mread_some _ _ _ _ H) as (? & ? & ? & Hz).
  destruct (mread_in m pos n1) as [x Hx]; [lia..|].
  destruct (mread_in m (pos + n1) n2) as [y Hy]; [lia..|].
  pose proof (mread_app _ _ _ _ _ _ Hx Hy) as Ha. rewrite H in Ha. injection Ha as ->.
  pose proof (mread_some _ _ _ _ Hx) as (_ & _ & _ & Hzx).
  assert (Hn : Z.to_nat n1 = length x) by (unfold zlen in *; lia).
  rewrite Hn. rewrite firstn_app, Nat.sub_diag, firstn_O, app_nil_r, firstn_all.
  rewrite skipn_app, Nat.sub_diag, skipn_all. cbn [skipn app]. split; assumption.
Qed.
Lemma mread_nil {A} (m : list A) pos : 0 <= pos <= zlen m -> mread m pos 0 = Some [].
Proof.
  intros. unfold mread.
  destruct ((0 <=? pos) && (0 <=? 0) && (pos + 0 <=? zlen m)) eqn:E; [reflexivity|lia].
Qed.
Lemma mread_full {A} (m : list A) : mread m 0 (zlen m) = Some m.
Proof.
  unfold mread. pose proof (zlen_nonneg m).
  destruct ((0 <=? 0) && (0 <=? zlen m) && (0 + zlen m <=? zlen m)) eqn:E; [|lia].
  cbn [Z.to_nat skipn]. f_equal. unfold zlen. rewrite Nat2Z.id. apply firstn_all.
Qed.
Lemma skipn_skipn {A} : forall y x (l : list A), skipn x (skipn y l) = skipn (x + y) l.
Proof.
  induction y as [|y IH]; intros x l; [rewrite Nat.add_0_r; reflexivity|].
  destruct l as [|a l]; [rewrite !skipn_nil; reflexivity|].
  rewrite Nat.add_succ_r. cbn [skipn]. apply IH.
Qed.

Lemma some_inj {A} (x y : A) : Some x = Some y -> x = y.
Proof. congruence. Qed.
