(** Proofs about the SACK block bookkeeping: sorting and merging of intervals. *)
From Coq Require Import Permutation Sorted.
From Verif Require Import Base ListUtil Seq SeqProps TcpRecv.
Local Ltac Zify.zify_post_hook ::= idtac.

(** Commutation with the wrap of offsets into sequence numbers. *)
Section Wrap.
  Variable isn lo : Z.
  Definition sq (x : Z) : Z := u32 (isn + x).
  Definition sqb (b : Z * Z) : Z * Z := (sq (fst b), sq (snd b)).
  Definition near (x : Z) : Prop := lo <= x < lo + 1073741824.
  Lemma sq_lt x y : near x -> near y -> tcp_seq_lt (sq x) (sq y) = (x <? y).
  Proof. intros [A B] [C D]. unfold sq. rewrite seq_lt_order by lia. lia. Qed.
  Lemma sq_leq x y : near x -> near y -> tcp_seq_leq (sq x) (sq y) = (x <=? y).
  Proof. intros [A B] [C D]. unfold sq. rewrite seq_leq_order by lia. lia. Qed.
  Lemma sq_eq x y : near x -> near y -> (sq x =? sq y) = (x =? y).
  Proof.
    intros [A B] [C D]. unfold sq, u32. destruct (Z.eqb_spec x y) as [-> |N]; [apply Z.eqb_refl|]. apply Z.eqb_neq. intros E.
    assert (M : (isn + x - (isn + y)) mod 4294967296 = 0) by (rewrite Zminus_mod, E, Z.sub_diag; reflexivity).
    replace (isn + x - (isn + y)) with (x - y) in M by lia.
    destruct (Z.lt_ge_cases (x - y) 0).
    - rewrite <- (Z.mod_add (x - y) 1) in M by lia. rewrite Z.mod_small in M by lia. lia.
    - rewrite Z.mod_small in M by lia. lia.
  Qed.
  Definition nearb (b : Z * Z) : Prop := near (fst b) /\ near (snd b).
  Lemma sort_pass_sq : forall r h, nearb h -> Forall nearb r ->
    sort_pass tcp_seq_lt (sqb h) (map sqb r) = (sqb (fst (sort_pass Z.ltb h r)), map sqb (snd (sort_pass Z.ltb h r))).
  Proof.
    induction r as [|b r IH]; intros h Hh Hr; [reflexivity|]. inversion Hr; subst. cbn [map sort_pass].
    change (fst (sqb b)) with (sq (fst b)). change (fst (sqb h)) with (sq (fst h)). destruct Hh as [Hh1 Hh2]. destruct H1 as [Hb1 Hb2].
    rewrite sq_lt by assumption. destruct (fst b <? fst h).
    - rewrite IH by (split || assumption; assumption). destruct (sort_pass Z.ltb b r) as [h' r']. reflexivity.
    - rewrite IH by (split || assumption; assumption). destruct (sort_pass Z.ltb h r) as [h' r']. reflexivity.
  Qed.
  Lemma sort_pass_perm lt : forall r h, Permutation (h :: r) (fst (sort_pass lt h r) :: snd (sort_pass lt h r)).
  Proof.
    induction r as [|b r IH]; intros h; [reflexivity|]. cbn [sort_pass]. destruct (lt (fst b) (fst h)).
    - specialize (IH b). destruct (sort_pass lt b r) as [h' r']. cbn [fst snd] in *. etransitivity; [apply perm_skip; exact IH|]. apply perm_swap.
    - specialize (IH h). destruct (sort_pass lt h r) as [h' r']. cbn [fst snd] in *. rewrite perm_swap. etransitivity; [apply perm_skip; exact IH|]. apply perm_swap.
  Qed.
  Lemma sort_blocks_sq : forall n l, Forall nearb l -> sort_blocks tcp_seq_lt n (map sqb l) = map sqb (sort_blocks Z.ltb n l).
  Proof.
    induction n as [|n IH]; intros l Hl; [reflexivity|]. destruct l as [|h r]; [reflexivity|]. cbn [map sort_blocks]. inversion Hl; subst.
    rewrite sort_pass_sq by assumption. pose proof (sort_pass_perm Z.ltb r h) as PM. destruct (sort_pass Z.ltb h r) as [h' r']. cbn [fst snd map] in *.
    f_equal. apply IH. assert (F : Forall nearb (h' :: r')) by (eapply Permutation_Forall; eassumption). inversion F; assumption.
  Qed.
  Lemma sort_blocks_perm lt : forall n l, Permutation l (sort_blocks lt n l).
  Proof.
    induction n as [|n IH]; intros l; [reflexivity|]. destruct l as [|h r]; [reflexivity|]. cbn [sort_blocks].
    pose proof (sort_pass_perm lt r h) as PM. destruct (sort_pass lt h r) as [h' r']. cbn [fst snd] in PM. etransitivity; [exact PM|]. apply perm_skip. apply IH.
  Qed.
  Lemma merge_go_sq : forall r cur, nearb cur -> Forall nearb r ->
    merge_go tcp_seq_lt tcp_seq_leq (sqb cur) (map sqb r) = map sqb (merge_go Z.ltb Z.leb cur r).
  Proof.
    induction r as [|b r IH]; intros cur Hc Hr; [reflexivity|]. inversion Hr as [|? ? [Hb1 Hb2] Hr']; subst. destruct Hc as [Hc1 Hc2]. cbn [map merge_go].
    change (fst (sqb b)) with (sq (fst b)). change (snd (sqb cur)) with (sq (snd cur)). change (snd (sqb b)) with (sq (snd b)). change (fst (sqb cur)) with (sq (fst cur)).
    rewrite sq_lt, sq_leq, sq_eq by assumption. destruct (fst b <? snd cur).
    - destruct (snd b <=? snd cur); cbn [negb].
      + apply IH; [split; assumption|assumption].
      + apply (IH (fst cur, snd b)); [split; assumption|assumption].
    - destruct (fst b =? snd cur).
      + apply (IH (fst cur, snd b)); [split; assumption|assumption].
      + cbn [map]. f_equal. apply IH; [split; assumption|assumption].
  Qed.
  Lemma merge_blocks_sq l : Forall nearb l -> merge_blocks tcp_seq_lt tcp_seq_leq (map sqb l) = map sqb (merge_blocks Z.ltb Z.leb l).
  Proof.
    intros H. unfold merge_blocks. rewrite map_length, sort_blocks_sq by exact H.
    assert (F : Forall nearb (sort_blocks Z.ltb (length l) l)) by (eapply Permutation_Forall; [apply sort_blocks_perm|exact H]).
    destruct (sort_blocks Z.ltb (length l) l) as [|b r]; [reflexivity|]. inversion F; subst. cbn [map]. apply merge_go_sq; assumption.
  Qed.
End Wrap.

(** Sorting really sorts. *)
Lemma sort_pass_min : forall r h, Forall (fun b => fst (fst (sort_pass Z.ltb h r)) <= fst b) (snd (sort_pass Z.ltb h r)) /\ fst (fst (sort_pass Z.ltb h r)) <= fst h.
Proof.
  induction r as [|b r IH]; intros h; [split; [constructor|cbn; lia]|]. cbn [sort_pass]. destruct (Z.ltb_spec (fst b) (fst h)).
  - destruct (IH b) as [A B]. destruct (sort_pass Z.ltb b r) as [h' r']. cbn [fst snd] in *. split; [constructor; [lia|exact A]|lia].
  - destruct (IH h) as [A B]. destruct (sort_pass Z.ltb h r) as [h' r']. cbn [fst snd] in *. split; [constructor; [lia|exact A]|lia].
Qed.
Definition sorted (l : list (Z * Z)) : Prop := StronglySorted (fun a b => fst a <= fst b) l.
Lemma sort_blocks_sorted : forall n l, (length l <= n)%nat -> sorted (sort_blocks Z.ltb n l).
Proof.
  induction n as [|n IH]; intros l L.
  - destruct l; [constructor|cbn in L; lia].
  - destruct l as [|h r]; [constructor|]. cbn [sort_blocks]. pose proof (sort_pass_min r h) as [A _]. pose proof (sort_pass_perm Z.ltb r h) as PM.
    destruct (sort_pass Z.ltb h r) as [h' r']. cbn [fst snd] in *. pose proof (Permutation_length PM) as PL. cbn [length] in PL, L. constructor.
    + apply IH. lia.
    + eapply Permutation_Forall; [apply sort_blocks_perm|exact A].
Qed.

Definition covers (l : list (Z * Z)) (y : Z) : Prop := exists b, In b l /\ fst b <= y < snd b.
(** increasing, pairwise separated by at least one missing position *)
Fixpoint separated (l : list (Z * Z)) : Prop :=
  match l with
  | [] => True
  | b :: r => fst b < snd b /\ Forall (fun c => snd b < fst c) r /\ separated r
  end.
Lemma merge_go_spec : forall r cur, fst cur < snd cur -> Forall (fun b => fst b < snd b) r -> Forall (fun b => fst cur <= fst b) r -> sorted r ->
  let m := merge_go Z.ltb Z.leb cur r in
  separated m /\ Forall (fun c => fst cur <= fst c) m /\ (forall y, covers m y <-> covers (cur :: r) y) /\ (length m <= S (length r))%nat.
Proof.
  induction r as [|b r IH]; intros cur Hc Hr Hl HS m.
  - unfold m. cbn [merge_go]. split; [cbn; auto|]. split; [repeat constructor; lia|]. split; [intros y; reflexivity|cbn; lia].
  - inversion Hr as [|? ? Hb Hr']; subst. inversion Hl as [|? ? Lb Ll]; subst. inversion HS as [|? ? S1 S2]; subst. unfold m. cbn [merge_go].
    destruct (Z.ltb_spec (fst b) (snd cur)) as [A|A].
    + destruct (Z.leb_spec (snd b) (snd cur)) as [B|B]; cbn [negb].
      * destruct (IH cur Hc Hr' Ll S1) as (I1 & I2 & I3 & I4). split; [exact I1|]. split; [exact I2|]. split; [|cbn; lia].
        intros y. rewrite I3. split.
        -- intros (c & [<- |I] & Y); [exists cur; cbn; auto|exists c; cbn; auto].
        -- intros (c & [<- |[<- |I]] & Y); [exists cur; cbn; auto| |exists c; cbn; auto]. exists cur. split; [left; reflexivity|]. lia.
      * destruct (IH (fst cur, snd b)) as (I1 & I2 & I3 & I4); [cbn; lia|exact Hr'|exact Ll|exact S1|]. cbn [fst snd] in *. split; [exact I1|]. split; [exact I2|]. split; [|cbn; lia].
        intros y. rewrite I3. split.
        -- intros (c & [<- |I] & Y); cbn [fst snd] in *; [|exists c; cbn; auto]. destruct (Z.lt_ge_cases y (snd cur)); [exists cur; cbn; split; [auto|lia]|exists b; cbn; split; [auto|lia]].
        -- intros (c & [<- |[<- |I]] & Y); [exists (fst cur, snd b); cbn; split; [auto|lia]|exists (fst cur, snd b); cbn; split; [auto|lia]|exists c; cbn; auto].
    + destruct (Z.eqb_spec (fst b) (snd cur)) as [B|B].
      * destruct (IH (fst cur, snd b)) as (I1 & I2 & I3 & I4); [cbn; lia|exact Hr'|exact Ll|exact S1|]. cbn [fst snd] in *. split; [exact I1|]. split; [exact I2|]. split; [|cbn; lia].
        intros y. rewrite I3. split.
        -- intros (c & [<- |I] & Y); cbn [fst snd] in *; [|exists c; cbn; auto]. destruct (Z.lt_ge_cases y (snd cur)); [exists cur; cbn; split; [auto|lia]|exists b; cbn; split; [auto|lia]].
        -- intros (c & [<- |[<- |I]] & Y); [exists (fst cur, snd b); cbn; split; [auto|lia]|exists (fst cur, snd b); cbn; split; [auto|lia]|exists c; cbn; auto].
      * destruct (IH b Hb Hr' S2 S1) as (I1 & I2 & I3 & I4). split; [|split; [|split]].
        -- cbn [separated]. split; [exact Hc|]. split; [|exact I1]. eapply Forall_impl; [|exact I2]. cbn. intros c X. lia.
        -- constructor; [lia|]. eapply Forall_impl; [|exact I2]. cbn. intros c X. lia.
        -- intros y. split.
           ++ intros (c & [<- |I] & Y); [exists cur; cbn; auto|]. destruct (proj1 (I3 y)) as (c' & I' & Y'); [exists c; auto|]. exists c'. cbn in *. tauto.
           ++ intros (c & [<- |I] & Y); [exists cur; cbn; auto|]. destruct (proj2 (I3 y)) as (c' & I' & Y'); [exists c; auto|]. exists c'. cbn in *. tauto.
        -- cbn. lia.
Qed.
Lemma merge_blocks_spec l : Forall (fun b => fst b < snd b) l ->
  let m := merge_blocks Z.ltb Z.leb l in
  separated m /\ (forall y, covers m y <-> covers l y) /\ (length m <= length l)%nat.
Proof.
  intros Hl m. unfold m, merge_blocks. pose proof (sort_blocks_perm Z.ltb (length l) l) as PM. pose proof (sort_blocks_sorted (length l) l (le_n _)) as SO.
  assert (F : Forall (fun b => fst b < snd b) (sort_blocks Z.ltb (length l) l)) by (eapply Permutation_Forall; eassumption).
  assert (CV : forall y, covers (sort_blocks Z.ltb (length l) l) y <-> covers l y).
  { intros y. split; intros (b & I & Y); exists b; (split; [|exact Y]); [eapply Permutation_in; [symmetry; exact PM|exact I]|eapply Permutation_in; [exact PM|exact I]]. }
  pose proof (Permutation_length PM) as PL.
  destruct (sort_blocks Z.ltb (length l) l) as [|b r].
  - split; [exact I|]. split; [exact CV|]. cbn. lia.
  - inversion F; subst. inversion SO; subst. destruct (merge_go_spec r b) as (I1 & I2 & I3 & I4); auto.
    split; [exact I1|]. split; [intros y; rewrite I3; apply CV|]. cbn [length] in PL. lia.
Qed.

(** Pairwise separated, in any order. *)
Definition apart (l : list (Z * Z)) : Prop :=
  Forall (fun b => fst b < snd b) l /\ ForallOrdPairs (fun b c => snd b < fst c \/ snd c < fst b) l.
Lemma separated_apart l : separated l -> apart l.
Proof.
  induction l as [|b r IH]; intros H; [split; constructor|]. destruct H as (A & B & C). destruct (IH C) as [D E]. split; constructor; auto.
  eapply Forall_impl; [|exact B]. cbn. auto.
Qed.
Lemma apart_perm l l' : Permutation l l' -> apart l -> apart l'.
Proof.
  intros P [A B]. split; [eapply Permutation_Forall; eassumption|]. clear A. induction P.
  - constructor.
  - inversion B; subst. constructor; [eapply Permutation_Forall; eassumption|auto].
  - inversion B as [|? ? F1 B1]; subst. inversion B1 as [|? ? F2 B2]; subst. inversion F1; subst. constructor; [constructor; [tauto|exact F2]|]. constructor; assumption.
  - auto.
Qed.
Lemma covers_perm l l' y : Permutation l l' -> covers l y -> covers l' y.
Proof. intros P (b & I & Y). exists b. split; [eapply Permutation_in; eassumption|exact Y]. Qed.
Lemma take_first_perm hit : forall l b r, take_first hit l = Some (b, r) -> Permutation l (b :: r) /\ hit b = true.
Proof.
  induction l as [|a l IH]; intros b r; cbn [take_first]; [discriminate|]. destruct (hit a) eqn:E.
  - intros H. injection H as <- <-. auto.
  - destruct (take_first hit l) as [[x q]|]; [|discriminate]. intros H. injection H as <- <-. destruct (IH x q eq_refl) as [P Q]. split; [|exact Q].
    etransitivity; [apply perm_skip; exact P|]. apply perm_swap.
Qed.
Lemma take_first_none hit : forall l, take_first hit l = None -> Forall (fun b => hit b = false) l.
Proof.
  induction l as [|a l IH]; cbn [take_first]; [constructor|]. destruct (hit a) eqn:E; [discriminate|]. destruct (take_first hit l) as [[x q]|]; [discriminate|]. auto.
Qed.
Lemma take_first_map (f : Z * Z -> Z * Z) hit hit' : forall l, Forall (fun b => hit (f b) = hit' b) l ->
  take_first hit (map f l) = match take_first hit' l with Some (b, r) => Some (f b, map f r) | None => None end.
Proof.
  induction l as [|a l IH]; intros F; [reflexivity|]. inversion F; subst. cbn [map take_first]. rewrite H1. destruct (hit' a); [reflexivity|].
  rewrite IH by assumption. destruct (take_first hit' l) as [[x q]|]; reflexivity.
Qed.
