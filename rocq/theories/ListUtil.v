(** Fixed-size tables as lists: positional update. *)
From Verif Require Import Base.
Local Ltac Zify.zify_post_hook ::= idtac.

Fixpoint set_nth {A} (i : nat) (v : A) (l : list A) : list A :=
  match l, i with
  | [], _ => []
  | _ :: l', O => v :: l'
  | x :: l', S i' => x :: set_nth i' v l'
  end.

Lemma set_nth_length {A} (v : A) l : forall i, length (set_nth i v l) = length l.
Proof. induction l as [|x l IH]; intros [|i]; cbn; congruence. Qed.
Lemma set_nth_same {A} (v : A) l : forall i, (i < length l)%nat -> nth_error (set_nth i v l) i = Some v.
Proof. induction l as [|x l IH]; intros [|i] H; cbn in *; try lia; [reflexivity|]. apply IH. lia. Qed.
Lemma set_nth_other {A} (v : A) l : forall i j, i <> j -> nth_error (set_nth i v l) j = nth_error l j.
Proof. induction l as [|x l IH]; intros [|i] [|j] H; cbn; try reflexivity; try lia. apply IH. lia. Qed.
Lemma set_nth_nth_error {A} (v : A) l i j : nth_error (set_nth i v l) j =
  if Nat.eqb i j then (if Nat.ltb i (length l) then Some v else None) else nth_error l j.
Proof.
  destruct (Nat.eqb_spec i j) as [-> |D]; [|apply set_nth_other; assumption].
  destruct (Nat.ltb_spec j (length l)); [apply set_nth_same; assumption|].
  apply nth_error_None. rewrite set_nth_length. lia.
Qed.
Lemma set_nth_in {A} (v x : A) l i : In x (set_nth i v l) -> x = v \/ In x l.
Proof.
  intros H. apply In_nth_error in H. destruct H as [j H]. rewrite set_nth_nth_error in H.
  destruct (Nat.eqb i j); [destruct (Nat.ltb i (length l)); [left; congruence|discriminate]|right; eapply nth_error_In; eassumption].
Qed.

(** Checked reads and writes of concatenations. *)
Lemma mread_app {A} (a b c : list A) : mread (a ++ b ++ c) (zlen a) (zlen b) = Some b.
Proof.
  unfold mread. rewrite !zlen_app. pose proof (zlen_nonneg a). pose proof (zlen_nonneg b). pose proof (zlen_nonneg c).
  destruct ((0 <=? zlen a) && (0 <=? zlen b) && (zlen a + zlen b <=? zlen a + (zlen b + zlen c))) eqn:E; [|lia]. unfold zlen.
  rewrite !Nat2Z.id, skipn_app, skipn_all, Nat.sub_diag. cbn [app skipn]. rewrite firstn_app, firstn_all, Nat.sub_diag. cbn [firstn]. rewrite app_nil_r. reflexivity.
Qed.
Lemma mwrite_app {A} (a b b' c : list A) : zlen b' = zlen b -> mwrite (a ++ b ++ c) (zlen a) b' = Some (a ++ b' ++ c).
Proof.
  intros L. unfold mwrite. rewrite !zlen_app, L. pose proof (zlen_nonneg a). pose proof (zlen_nonneg c).
  destruct ((0 <=? zlen a) && (zlen a + zlen b <=? zlen a + (zlen b + zlen c))) eqn:E; [|lia]. unfold zlen.
  rewrite <- Nat2Z.inj_add, !Nat2Z.id, firstn_app, firstn_all, Nat.sub_diag. cbn. rewrite app_nil_r. f_equal. f_equal. f_equal.
  rewrite app_assoc, <- app_length, skipn_app, skipn_all, Nat.sub_diag. reflexivity.
Qed.
Lemma mwrite_eq {A} (m a b c b' : list A) pos m' : m = a ++ b ++ c -> pos = zlen a -> zlen b' = zlen b -> m' = a ++ b' ++ c -> mwrite m pos b' = Some m'.
Proof. intros -> -> L ->. apply mwrite_app. exact L. Qed.
Lemma mread_eq {A} (m a b c : list A) pos n : m = a ++ b ++ c -> pos = zlen a -> n = zlen b -> mread m pos n = Some b.
Proof. intros -> -> ->. apply mread_app. Qed.
Lemma split_at {A} (l : list A) n : 0 <= n <= zlen l -> exists a b, l = a ++ b /\ zlen a = n /\ zlen b = zlen l - n.
Proof.
  intros H. exists (firstn (Z.to_nat n) l), (skipn (Z.to_nat n) l). rewrite firstn_skipn. unfold zlen in *. rewrite firstn_length, skipn_length. split; [reflexivity|]. lia.
Qed.
Lemma mread_pre {A} (a b : list A) n : zlen a = n -> mread (a ++ b) 0 n = Some a.
Proof. intros <-. exact (mread_app [] a b). Qed.
Lemma mread_suf {A} (a b : list A) n k : zlen a = n -> zlen b = k -> mread (a ++ b) n k = Some b.
Proof. intros <- <-. rewrite <- (app_nil_r b) at 1. apply mread_app. Qed.
Lemma repeat_split {A} (x : A) a b : repeat x (a + b) = repeat x a ++ repeat x b.
Proof. apply repeat_app. Qed.
Lemma zlen_repeat {A} (x : A) n : zlen (repeat x n) = Z.of_nat n.
Proof. unfold zlen. rewrite repeat_length. reflexivity. Qed.

