(** Byte-level lemmas for the ESP model: writing header fields, checksums, tables. *)
From Verif Require Import Base Checksum ChecksumProps Arp Forward EspReplay Esp.

Record fx := mkFx { x_t : Z; x4 : Z; x5 : Z; x6 : Z; x7 : Z; x8 : Z;
                    x12 : Z; x13 : Z; x14 : Z; x15 : Z; x16 : Z; x17 : Z; x18 : Z; x19 : Z }.
Definition hdr (F : fx) (v l0 l1 p c0 c1 : Z) : list Z :=
  [v; x_t F; l0; l1; x4 F; x5 F; x6 F; x7 F; x8 F; p; c0; c1;
   x12 F; x13 F; x14 F; x15 F; x16 F; x17 F; x18 F; x19 F].

Lemma hdr_ex ip : 20 <= zlen ip -> exists F v l0 l1 p c0 c1 r, ip = hdr F v l0 l1 p c0 c1 ++ r.
Proof.
  intros H. do 20 (destruct ip as [|? ip]; [exfalso; rewrite ?zlen_cons, zlen_nil in H; lia|]).
  eexists (mkFx _ _ _ _ _ _ _ _ _ _ _ _ _ _), _, _, _, _, _, _, ip. reflexivity.
Qed.
Lemma hdr_zlen F v l0 l1 p c0 c1 r : zlen (hdr F v l0 l1 p c0 c1 ++ r) = 20 + zlen r.
Proof. rewrite zlen_app. reflexivity. Qed.

Definition b1 (n : Z) := Z.shiftr n 8 mod 256.
Definition b0 (n : Z) := n mod 256.
Lemma hdr_put2 F v l0 l1 p c0 c1 r n :
  mwrite (hdr F v l0 l1 p c0 c1 ++ r) 2 (Arp.be16 n) = Some (hdr F v (b1 n) (b0 n) p c0 c1 ++ r).
Proof.
  unfold mwrite. rewrite hdr_zlen. pose proof (zlen_nonneg r). change (zlen (Arp.be16 n)) with 2.
  replace ((0 <=? 2) && (2 + 2 <=? 20 + zlen r)) with true by lia. reflexivity.
Qed.
Lemma hdr_put9 F v l0 l1 p c0 c1 r n :
  mwrite (hdr F v l0 l1 p c0 c1 ++ r) 9 [n] = Some (hdr F v l0 l1 n c0 c1 ++ r).
Proof.
  unfold mwrite. rewrite hdr_zlen. pose proof (zlen_nonneg r). change (zlen [n]) with 1.
  replace ((0 <=? 9) && (9 + 1 <=? 20 + zlen r)) with true by lia. reflexivity.
Qed.
Lemma hdr_put10 F v l0 l1 p c0 c1 r n :
  put16 (hdr F v l0 l1 p c0 c1 ++ r) 10 n = Some (hdr F v l0 l1 p (b1 n) (b0 n) ++ r).
Proof.
  unfold put16, mwrite. rewrite hdr_zlen. pose proof (zlen_nonneg r). change (zlen (Checksum.be16 n)) with 2.
  replace ((0 <=? 10) && (10 + 2 <=? 20 + zlen r)) with true by lia. reflexivity.
Qed.

Lemma sum_words_range b : forall s, 0 <= s < 4294967296 -> 0 <= sum_words b s < 4294967296.
Proof.
  induction b as [| x | x y b IH] using list_pair_ind; intros s H; cbn [sum_words].
  - assumption.
  - unfold u32; lia.
  - apply IH. unfold u32; lia.
Qed.
Definition ckv (b : list Z) : Z := match fold_loop 2 (sum_words b 0) with Some s => not16 s | None => 0 end.
Lemma ckv_ok b : exists s, fold_loop 2 (sum_words b 0) = Some s /\ ckv b = not16 s.
Proof.
  pose proof (sum_words_range b 0 ltac:(lia)) as H. unfold ckv.
  destruct (fold_exits _ H) as (s & E & _). exists s. rewrite E. auto.
Qed.
Definition hlen (v : Z) : Z := let h := ihl_bytes v in if h <? 20 then 20 else h.
Lemma hdr_ck F v l0 l1 p c0 c1 r : hlen v <= 20 + zlen r ->
  let k := ckv (firstn (Z.to_nat (hlen v)) (hdr F v l0 l1 p 0 0 ++ r)) in
  iphdr_set_checksum (hdr F v l0 l1 p c0 c1 ++ r) = Some (hdr F v l0 l1 p (b1 k) (b0 k) ++ r).
Proof.
  intros H k. unfold iphdr_set_checksum. pose proof (zlen_nonneg r).
  assert (M0 : mread (hdr F v l0 l1 p c0 c1 ++ r) 0 1 = Some [v]).
  { unfold mread. rewrite hdr_zlen. replace ((0 <=? 0) && (0 <=? 1) && (0 + 1 <=? 20 + zlen r)) with true by lia. reflexivity. }
  rewrite M0. cbn [obind]. change (zget [v] 0) with v.
  rewrite hdr_put10. cbn [obind]. change (b1 0) with 0. change (b0 0) with 0.
  fold (hlen v).
  assert (20 <= hlen v) by (unfold hlen; destruct (Z.ltb_spec (ihl_bytes v) 20); lia).
  assert (M1 : mread (hdr F v l0 l1 p 0 0 ++ r) 0 (hlen v) = Some (firstn (Z.to_nat (hlen v)) (hdr F v l0 l1 p 0 0 ++ r))).
  { unfold mread. rewrite hdr_zlen. replace ((0 <=? 0) && (0 <=? hlen v) && (0 + hlen v <=? 20 + zlen r)) with true by lia. reflexivity. }
  rewrite M1. cbn [obind].
  destruct (ckv_ok (firstn (Z.to_nat (hlen v)) (hdr F v l0 l1 p 0 0 ++ r))) as (s & E & K).
  rewrite E. cbn [obind]. rewrite hdr_put10. fold k in K. rewrite <- K. reflexivity.
Qed.
Lemma hdr_firstn F v l0 l1 p c0 c1 r : firstn 20 (hdr F v l0 l1 p c0 c1 ++ r) = hdr F v l0 l1 p c0 c1.
Proof. reflexivity. Qed.
Lemma hdr_ck20 F v l0 l1 p c0 c1 r : hlen v = 20 ->
  let k := ckv (hdr F v l0 l1 p 0 0) in
  iphdr_set_checksum (hdr F v l0 l1 p c0 c1 ++ r) = Some (hdr F v l0 l1 p (b1 k) (b0 k) ++ r).
Proof.
  intros H k. pose proof (hdr_ck F v l0 l1 p c0 c1 r) as E. cbn zeta in E. rewrite H in E.
  change (Z.to_nat 20) with 20%nat in E. rewrite hdr_firstn in E. apply E. pose proof (zlen_nonneg r). lia.
Qed.

Lemma leqb_eq a : forall b, leqb a b = true <-> a = b.
Proof.
  induction a as [|x a IH]; intros [|y b]; cbn [leqb]; split; intros H; try congruence; try discriminate.
  - apply andb_prop in H. destruct H as (H1 & H2). apply IH in H2. f_equal; [lia|assumption].
  - injection H as -> ->. rewrite Z.eqb_refl. cbn [andb]. apply IH. reflexivity.
Qed.
Lemma leqb_refl a : leqb a a = true. Proof. apply leqb_eq. reflexivity. Qed.

Lemma rd16_be n : 0 <= n < 65536 -> 256 * b1 n + b0 n = n.
Proof. unfold b1, b0. intros. rewrite Z.shiftr_div_pow2 by lia. change (2 ^ 8) with 256. lia. Qed.
Lemma rd32_be n : 0 <= n < 4294967296 -> rd32 (be32 n) 0 = n.
Proof.
  intros. change (16777216 * (Z.shiftr n 24 mod 256) + 65536 * (Z.shiftr n 16 mod 256) + 256 * (Z.shiftr n 8 mod 256) + n mod 256 = n).
  rewrite !Z.shiftr_div_pow2 by lia. change (2 ^ 24) with 16777216. change (2 ^ 16) with 65536. change (2 ^ 8) with 256. lia.
Qed.
Lemma zlen_firstn {A} (l : list A) n : 0 <= n -> n <= zlen l -> zlen (firstn (Z.to_nat n) l) = n.
Proof. unfold zlen. intros. rewrite firstn_length. lia. Qed.
Lemma zlen_skipn {A} (l : list A) n : 0 <= n -> n <= zlen l -> zlen (skipn (Z.to_nat n) l) = zlen l - n.
Proof. unfold zlen. intros. rewrite skipn_length. lia. Qed.
Lemma firstn_app_z {A} (a b : list A) n : n = zlen a -> firstn (Z.to_nat n) (a ++ b) = a.
Proof.
  intros ->. unfold zlen. rewrite Nat2Z.id. rewrite firstn_app, Nat.sub_diag, firstn_O, app_nil_r. apply firstn_all.
Qed.
Lemma skipn_app_z {A} (a b : list A) n : n = zlen a -> skipn (Z.to_nat n) (a ++ b) = b.
Proof.
  intros ->. unfold zlen. rewrite Nat2Z.id. rewrite skipn_app, Nat.sub_diag, skipn_all. reflexivity.
Qed.
Lemma zget_app2 (a b : list Z) i : zlen a <= i -> zget (a ++ b) i = zget b (i - zlen a).
Proof. unfold zget, zlen. intros. rewrite app_nth2 by lia. f_equal. lia. Qed.
Lemma zget_app1 (a b : list Z) i : 0 <= i < zlen a -> zget (a ++ b) i = zget a i.
Proof. unfold zget, zlen. intros. rewrite app_nth1 by lia. reflexivity. Qed.

(** [s] is the first entry of [l] that satisfies [p]; [l'] is [l] with it replaced by [t]. *)
Definition first_is (p : sa -> bool) (l : list sa) (s t : sa) (l' : list sa) : Prop :=
  exists l1 l2, l = l1 ++ s :: l2 /\ l' = l1 ++ t :: l2 /\ p s = true /\ (forall x, In x l1 -> p x = false).
Lemma with_first_hit {R} p (f : sa -> option (sa * R)) l : forall l1 s l2 t r,
  l = l1 ++ s :: l2 -> p s = true -> (forall x, In x l1 -> p x = false) -> f s = Some (t, r) ->
  with_first p f l = Some (l1 ++ t :: l2, Some r).
Proof.
  intros l1; revert l; induction l1 as [|x l1 IH]; intros l s l2 t r -> Hp H1 Hf; cbn [app with_first].
  - rewrite Hp, Hf. reflexivity.
  - rewrite (H1 x) by (left; reflexivity). rewrite (IH (l1 ++ s :: l2) s l2 t r); auto. intros y Hy. apply H1. right. exact Hy.
Qed.
Lemma with_first_inv {R} p (f : sa -> option (sa * R)) l : forall l' r,
  with_first p f l = Some (l', r) ->
  match r with
  | None => l' = l /\ (forall x, In x l -> p x = false)
  | Some r => exists l1 s l2 t, l = l1 ++ s :: l2 /\ l' = l1 ++ t :: l2 /\ p s = true /\ (forall x, In x l1 -> p x = false) /\ f s = Some (t, r)
  end.
Proof.
  induction l as [|x l IH]; intros l' r H; cbn [with_first] in H.
  - injection H as <- <-. split; [reflexivity|]. intros x [].
  - destruct (p x) eqn:E.
    + destruct (f x) as [[t q]|] eqn:F; [|discriminate]. cbn [obind] in H. injection H as <- <-.
      exists [], x, l, t. cbn [app]. repeat (split; [solve [auto | intros y []]|]). assumption.
    + destruct (with_first p f l) as [[l0 q]|] eqn:F; [|discriminate]. cbn [obind] in H. injection H as <- <-.
      specialize (IH _ _ eq_refl). destruct q as [q|].
      * destruct IH as (l1 & s & l2 & t & -> & -> & Hp & H1 & Hf). exists (x :: l1), s, l2, t. cbn [app].
        split; [reflexivity|]. split; [reflexivity|]. split; [assumption|]. split; [|assumption].
        intros y [<-|Hy]; auto.
      * destruct IH as (-> & H1). split; [reflexivity|]. intros y [<-|Hy]; auto.
Qed.

Lemma padding_len n : 0 <= n -> zlen (padding n) = n.
Proof. intros. unfold zlen, padding. rewrite map_length, seq_length. lia. Qed.
Lemma pad_for_range e n : 0 <= n -> 0 <= pad_for e n < 16.
Proof.
  intros. unfold pad_for. destruct e; cbn [block_len iv_len Z.eqb negb]; match goal with |- context[if ?b then _ else _] => destruct b eqn:? end; lia.
Qed.
Lemma xor_bytes_len a : forall b, length a = length b -> length (xor_bytes a b) = length a.
Proof. induction a as [|x a IH]; intros [|y b] H; cbn in *; try discriminate; [reflexivity|]. f_equal. apply IH. lia. Qed.
