(** C37: HTTP URL coding is safe and inverse. *)
From Verif Require Import Base HttpUrl.
Local Ltac Zify.zify_post_hook ::= idtac.

(** ** Specification *)
Definition hexval (c : Z) : option Z :=
  if (48 <=? c) && (c <=? 57) then Some (c - 48)
  else if (65 <=? c) && (c <=? 70) then Some (c - 55)
  else if (97 <=? c) && (c <=? 102) then Some (c - 87) else None.
(** RFC 3986 percent-decoding; an error is the (negative) code of the first bad escape. *)
Fixpoint pct_decode (s : list Z) : Z + list Z :=
  match s with
  | [] => inr []
  | c :: s' =>
      if c =? 37 then
        match s' with
        | h :: l :: t =>
            match hexval h, hexval l with
            | Some a, Some b => match pct_decode t with inr r => inr (16 * a + b :: r) | inl e => inl e end
            | _, _ => inl (-2)
            end
        | _ => inl (-1)
        end
      else match pct_decode s' with inr r => inr (c :: r) | inl e => inl e end
  end.
Definition space_encode (s : list Z) : list Z := flat_map (fun c => if c =? 32 then [37; 50; 48] else [c]) s.

(** ** Proofs *)
Lemma mread_mid {A} (a b c : list A) : mread (a ++ b ++ c) (zlen a) (zlen b) = Some b.
Proof.
  unfold mread. rewrite !zlen_app. pose proof (zlen_nonneg a); pose proof (zlen_nonneg b); pose proof (zlen_nonneg c).
  destruct ((0 <=? zlen a) && (0 <=? zlen b) && (zlen a + zlen b <=? zlen a + (zlen b + zlen c))) eqn:E; [|lia].
  unfold zlen. rewrite !Nat2Z.id. rewrite skipn_app, Nat.sub_diag, skipn_all. cbn [skipn app].
  rewrite firstn_app, Nat.sub_diag, firstn_all. cbn [firstn]. rewrite app_nil_r. reflexivity.
Qed.
Lemma mwrite_mid {A} (a b b' c : list A) : length b' = length b -> mwrite (a ++ b ++ c) (zlen a) b' = Some (a ++ b' ++ c).
Proof.
  intros HL. unfold mwrite. rewrite !zlen_app. pose proof (zlen_nonneg a); pose proof (zlen_nonneg c).
  assert (zlen b' = zlen b) by (unfold zlen; lia). pose proof (zlen_nonneg b).
  destruct ((0 <=? zlen a) && (zlen a + zlen b' <=? zlen a + (zlen b + zlen c))) eqn:E; [|lia].
  f_equal. replace (Z.to_nat (zlen a + zlen b')) with (length a + length b')%nat by (unfold zlen; lia).
  unfold zlen. rewrite Nat2Z.id. rewrite firstn_app, Nat.sub_diag, firstn_all. cbn [firstn]. rewrite app_nil_r. f_equal. f_equal.
  rewrite HL. rewrite skipn_app. replace (length a + length b - length a)%nat with (length b) by lia.
  rewrite (skipn_all2 a) by lia. cbn [app]. rewrite skipn_app, Nat.sub_diag, skipn_all. reflexivity.
Qed.
Lemma mread_at {A} (a b c m : list A) p n : m = a ++ b ++ c -> p = zlen a -> n = zlen b -> mread m p n = Some b.
Proof. intros -> -> ->. apply mread_mid. Qed.
Lemma mwrite_at {A} (a b b' c m : list A) p : m = a ++ b ++ c -> p = zlen a -> length b' = length b ->
  mwrite m p b' = Some (a ++ b' ++ c).
Proof. intros -> -> H. apply mwrite_mid. exact H. Qed.

(** Splitting at the first occurrence of a byte. *)
Lemma find_byte_spec c : forall l i, match find_byte l c i with
  | None => ~ In c l
  | Some q => exists a b, l = a ++ c :: b /\ ~ In c a /\ q = i + zlen a
  end.
Proof.
  induction l as [|x l IH]; intros i; cbn; [tauto|]. destruct (Z.eqb_spec x c) as [-> |D].
  - exists [], l. split; [reflexivity|]. split; [cbn; tauto|]. rewrite zlen_nil. lia.
  - specialize (IH (i + 1)). destruct (find_byte l c (i + 1)).
    + destruct IH as (a & b & -> & H2 & ->). exists (x :: a), b. split; [reflexivity|]. split; [cbn; intuition congruence|]. rewrite zlen_cons. lia.
    + cbn. intuition congruence.
Qed.

Lemma hexval_model c : 0 <= c < 256 -> match hexval c with Some v => http_hex_value c = v /\ 0 <= v < 16 | None => http_hex_value c = -1 end.
Proof.
  intros H. unfold hexval, http_hex_value, tolower.
  destruct (Z.leb_spec 48 c), (Z.leb_spec c 57), (Z.leb_spec 65 c), (Z.leb_spec c 70), (Z.leb_spec 97 c), (Z.leb_spec c 102),
    (Z.leb_spec c 90); cbn [andb]; try lia;
  repeat match goal with |- context [Z.leb ?a ?b] => destruct (Z.leb_spec a b) end; cbn [andb]; lia.
Qed.
Lemma lor_nibbles a b : 0 <= a < 16 -> 0 <= b < 16 -> Z.lor (Z.shiftl a 4) b = 16 * a + b.
Proof.
  intros Ha Hb. rewrite Z.shiftl_mul_pow2 by lia. change (2 ^ 4) with 16.
  assert (E : Z.land (a * 16) b = 0).
  { change 16 with (2 ^ 4). rewrite <- Z.shiftl_mul_pow2 by lia. apply Z.bits_inj'. intros n Hn. rewrite Z.land_spec, Z.bits_0.
    destruct (Z.ltb_spec n 4).
    - rewrite Z.shiftl_spec_low by lia. reflexivity.
    - rewrite (Z.bits_above_log2 b n); [apply andb_false_r|lia|]. destruct (Z.eq_dec b 0) as [-> |]; [cbn; lia|].
      apply Z.log2_lt_pow2; [lia|]. apply Z.lt_le_trans with (2 ^ 4); [lia|]. apply Z.pow_le_mono_r; lia. }
  rewrite <- Z.lxor_lor, <- Z.add_nocarry_lxor by exact E. lia.
Qed.

Lemma pct_decode_clean s : ~ In 37 s -> pct_decode s = inr s.
Proof.
  induction s as [|c s IH]; intros H; cbn; [reflexivity|]. destruct (Z.eqb_spec c 37) as [-> |D]; [cbn in H; tauto|].
  rewrite IH; [reflexivity|cbn in H; tauto].
Qed.
Lemma pct_decode_app a s : ~ In 37 a -> pct_decode (a ++ s) = match pct_decode s with inr r => inr (a ++ r) | inl e => inl e end.
Proof.
  induction a as [|c a IH]; intros H; cbn; [destruct (pct_decode s); reflexivity|].
  destruct (Z.eqb_spec c 37) as [-> |D]; [cbn in H; tauto|]. rewrite IH by (cbn in H; tauto). destruct (pct_decode s); reflexivity.
Qed.

Lemma decode_loop_spec : forall fuel done rest post, Forall byte rest -> (length rest <= fuel)%nat ->
  match pct_decode rest with
  | inr r => exists junk, decode_loop fuel (done ++ rest ++ post) (zlen done) (zlen done + zlen rest) (zlen done + zlen rest)
                          = Some (done ++ r ++ junk ++ post, zlen done + zlen r) /\ zlen r + zlen junk = zlen rest
  | inl e => exists rest', decode_loop fuel (done ++ rest ++ post) (zlen done) (zlen done + zlen rest) (zlen done + zlen rest)
                          = Some (done ++ rest' ++ post, e) /\ zlen rest' = zlen rest
  end.
Proof.
  induction fuel as [|fuel IH]; intros done rest post HB HF.
  - destruct rest; [|cbn in HF; lia]. exists []. cbn [pct_decode decode_loop app]. split; reflexivity.
  - cbn [decode_loop]. destruct (Z.ltb_spec (zlen done) (zlen done + zlen rest)) as [L|L].
    2: { assert (rest = []) as -> by (apply zlen_zero; pose proof (zlen_nonneg rest); lia). exists []. cbn [pct_decode app]. split; reflexivity. }
    unfold memchr. rewrite (mread_at done rest post) by (try reflexivity; lia). cbn [obind].
    pose proof (find_byte_spec 37 rest (zlen done)) as F. destruct (find_byte rest 37 (zlen done)) as [q|].
    2: { rewrite (pct_decode_clean rest F). exists []. cbn [app]. split; [reflexivity|]. rewrite zlen_nil. lia. }
    destruct F as (a & b & -> & NA & ->). rewrite pct_decode_app by exact NA. rewrite zlen_app, zlen_cons in *.
    apply Forall_app in HB. destruct HB as [HBa HB]. apply Forall_inv_tail in HB.
    destruct b as [|h [|l t]].
    { cbn [pct_decode]. rewrite Z.eqb_refl. change (zlen (@nil Z)) with 0. exists (a ++ [37]).
      destruct (Z.leb_spec (zlen done + (zlen a + (1 + 0))) (zlen done + zlen a + 2)); [|lia].
      split; [reflexivity|]. rewrite zlen_app. reflexivity. }
    { cbn [pct_decode]. rewrite Z.eqb_refl. change (zlen [h]) with 1. exists (a ++ [37; h]).
      destruct (Z.leb_spec (zlen done + (zlen a + (1 + 1))) (zlen done + zlen a + 2)); [|lia].
      split; [reflexivity|]. rewrite zlen_app. reflexivity. }
    rewrite !zlen_cons in *. pose proof (zlen_nonneg t). pose proof (zlen_nonneg done). pose proof (zlen_nonneg a).
    destruct (Z.leb_spec (zlen done + (zlen a + (1 + (1 + (1 + zlen t))))) (zlen done + zlen a + 2)); [lia|].
    assert (M1 : rd1 (done ++ (a ++ 37 :: h :: l :: t) ++ post) (zlen done + zlen a + 1) = Some h).
    { unfold rd1. rewrite (mread_at (done ++ a ++ [37]) [h] (l :: t ++ post)); [reflexivity| | |reflexivity].
      - rewrite <- !app_assoc. reflexivity.
      - rewrite !zlen_app. change (zlen [37]) with 1. lia. }
    assert (M2 : rd1 (done ++ (a ++ 37 :: h :: l :: t) ++ post) (zlen done + zlen a + 2) = Some l).
    { unfold rd1. rewrite (mread_at (done ++ a ++ [37; h]) [l] (t ++ post)); [reflexivity| | |reflexivity].
      - rewrite <- !app_assoc. reflexivity.
      - rewrite !zlen_app. change (zlen [37; h]) with 2. lia. }
    rewrite M1, M2. cbn [obind]. cbn [pct_decode]. rewrite Z.eqb_refl.
    inversion HB as [|? ? Hh HB2]; subst. inversion HB2 as [|? ? Hl HB3]; subst. unfold byte in Hh, Hl.
    pose proof (hexval_model h Hh) as Vh. pose proof (hexval_model l Hl) as Vl.
    destruct (hexval h) as [vh|].
    2: { rewrite Vh. cbn [Z.ltb Z.compare orb]. exists (a ++ 37 :: h :: l :: t). split; [reflexivity|]. rewrite zlen_app, !zlen_cons. reflexivity. }
    destruct Vh as [Vh Rh]. rewrite Vh.
    destruct (hexval l) as [vl|].
    2: { rewrite Vl. rewrite orb_true_r. exists (a ++ 37 :: h :: l :: t). split; [reflexivity|]. rewrite zlen_app, !zlen_cons. reflexivity. }
    destruct Vl as [Vl Rl]. rewrite Vl.
    destruct ((vh <? 0) || (vl <? 0)) eqn:NEG; [lia|]. rewrite lor_nibbles by assumption.
    rewrite (mwrite_at (done ++ a) [37] [16 * vh + vl] (h :: l :: t ++ post)); [|rewrite <- !app_assoc; reflexivity|rewrite zlen_app; lia|reflexivity].
    cbn [obind]. unfold memmove.
    rewrite (mread_at (done ++ a ++ [16 * vh + vl; h; l]) t post); [| |rewrite !zlen_app; change (zlen [16 * vh + vl; h; l]) with 3; lia|lia].
    2: { rewrite <- !app_assoc. reflexivity. }
    cbn [obind].
    (* the moved tail: t lands on h :: l :: t, leaving its last two bytes behind *)
    assert (TJ : exists j, length j = 2%nat /\ mwrite ((done ++ a) ++ [16 * vh + vl] ++ h :: l :: t ++ post) (zlen done + zlen a + 1) t
                 = Some (((done ++ a ++ [16 * vh + vl]) ++ t ++ j ++ post))).
    { remember (h :: l :: t) as hlt. exists (skipn (length t) hlt). split; [subst; rewrite skipn_length; cbn [length]; lia|].
      rewrite (mwrite_at (done ++ a ++ [16 * vh + vl]) (firstn (length t) hlt) t (skipn (length t) hlt ++ post)).
      - rewrite <- !app_assoc. reflexivity.
      - rewrite (app_assoc (firstn _ _)), firstn_skipn. subst hlt. rewrite <- !app_assoc. reflexivity.
      - rewrite !zlen_app. change (zlen [16 * vh + vl]) with 1. lia.
      - rewrite firstn_length. subst. cbn [length]. lia. }
    destruct TJ as (j & LJ & TJ). rewrite TJ. cbn [obind].
    specialize (IH (done ++ a ++ [16 * vh + vl]) t (j ++ post)).
    assert (Zj : zlen j = 2) by (unfold zlen; rewrite LJ; reflexivity).
    assert (LEN : zlen (done ++ a ++ [16 * vh + vl]) = zlen done + zlen a + 1) by (rewrite !zlen_app; change (zlen [16 * vh + vl]) with 1; lia).
    rewrite LEN in IH.
    replace (zlen done + (zlen a + (1 + (1 + (1 + zlen t)))) - 2) with (zlen done + zlen a + 1 + zlen t) by lia.
    destruct (pct_decode t) as [e|r].
    + destruct IH as (rest' & E & Zr); [assumption|rewrite app_length in HF; cbn [length] in HF; lia|].
      rewrite E. exists (a ++ [16 * vh + vl] ++ rest' ++ j). split.
      * rewrite <- !app_assoc. reflexivity.
      * rewrite !zlen_app. change (zlen [16 * vh + vl]) with 1. lia.
    + destruct IH as (junk & E & Zr); [assumption|rewrite app_length in HF; cbn [length] in HF; lia|].
      rewrite E. exists (junk ++ j). split.
      * f_equal. f_equal; [|rewrite zlen_app, zlen_cons; lia]. rewrite <- !app_assoc. reflexivity.
      * rewrite !zlen_app, zlen_cons. lia.
Qed.

Lemma pct_decode_err : forall n s, (length s <= n)%nat -> forall e, pct_decode s = inl e -> e < 0.
Proof.
  induction n as [|n IH]; intros [|c s] HL e; cbn [pct_decode]; try discriminate; [cbn in HL; lia|].
  destruct (c =? 37).
  - destruct s as [|h [|l t]]; intros X; try (injection X as <-; lia).
    destruct (hexval h); [|injection X as <-; lia]. destruct (hexval l); [|injection X as <-; lia].
    destruct (pct_decode t) eqn:T; [|discriminate]. injection X as <-. apply (IH t); [cbn in HL; lia|assumption].
  - destruct (pct_decode s) eqn:T; [|discriminate]. intros X. injection X as <-. apply (IH s); [cbn in HL; lia|assumption].
Qed.

(** C37.  Decoding touches no memory outside the string (not even to read it),
    and computes percent-decoding: the decoded string, never longer, ends up at
    the start of the buffer and its length is returned. *)
Theorem url_decode_exact : forall s post, Forall byte s ->
  exists m' ret, http_url_decode (s ++ post) (zlen s) = Some (m', ret) /\
    (exists s', m' = s' ++ post /\ length s' = length s) /\
    match pct_decode s with
    | inr r => ret = zlen r /\ zlen r <= zlen s /\ firstn (length r) m' = r
    | inl e => ret = e /\ e < 0
    end.
Proof.
  intros s post HB. unfold http_url_decode.
  pose proof (decode_loop_spec (Z.to_nat (zlen s)) [] s post HB ltac:(unfold zlen; lia)) as H. cbn [app] in H.
  change (zlen (@nil Z)) with 0 in H. cbn [Z.add] in H.
  destruct (pct_decode s) as [e|r] eqn:P.
  - destruct H as (s' & E & L). exists (s' ++ post), e. split; [exact E|]. split; [exists s'; split; [reflexivity|unfold zlen in L; lia]|].
    split; [reflexivity|]. apply (pct_decode_err (length s) s (le_n _) e P).
  - destruct H as (junk & E & L). exists (r ++ junk ++ post), (zlen r). split; [exact E|]. pose proof (zlen_nonneg junk). split.
    + exists (r ++ junk). rewrite <- app_assoc. split; [reflexivity|]. rewrite app_length. unfold zlen in *. lia.
    + split; [reflexivity|]. split; [lia|]. rewrite firstn_app, Nat.sub_diag, firstn_all. cbn. apply app_nil_r.
Qed.

Lemma space_encode_clean s : ~ In 32 s -> space_encode s = s.
Proof.
  induction s as [|c s IH]; intros H; cbn; [reflexivity|]. destruct (Z.eqb_spec c 32) as [-> |D]; [cbn in H; tauto|].
  cbn. f_equal. apply IH. cbn in H. tauto.
Qed.
Lemma space_encode_app a b : space_encode (a ++ b) = space_encode a ++ space_encode b.
Proof. unfold space_encode. apply flat_map_app. Qed.

Lemma space_encode_len s : (length s <= length (space_encode s))%nat.
Proof. unfold space_encode. induction s as [|c s IH]; cbn [flat_map length]; [lia|]. rewrite app_length. destruct (c =? 32); cbn [length]; lia. Qed.

Lemma encode_loop_spec : forall fuel done rest post mx, (length rest <= fuel)%nat ->
  mx <= zlen done + zlen rest + zlen post ->
  if zlen done + zlen (space_encode rest) <? mx
  then exists post', encode_loop fuel (done ++ rest ++ post) (zlen done) (zlen done + zlen rest) mx =
         Some (done ++ space_encode rest ++ 0 :: post', zlen done + zlen (space_encode rest)) /\
         zlen (space_encode rest) + 1 + zlen post' = zlen rest + zlen post /\
         skipn (Z.to_nat mx) (done ++ space_encode rest ++ 0 :: post') = skipn (Z.to_nat mx) (done ++ rest ++ post)
  else exists m', encode_loop fuel (done ++ rest ++ post) (zlen done) (zlen done + zlen rest) mx = Some (m', -1) /\
         zlen m' = zlen (done ++ rest ++ post) /\ skipn (Z.to_nat mx) m' = skipn (Z.to_nat mx) (done ++ rest ++ post).
Proof.
  assert (FIN : forall done rest post mx, ~ In 32 rest -> mx <= zlen done + zlen rest + zlen post ->
    if zlen done + zlen (space_encode rest) <? mx
    then exists post', (if mx <=? zlen done + zlen rest then Some (done ++ rest ++ post, -1) else do m' <- mwrite (done ++ rest ++ post) (zlen done + zlen rest) [0]; Some (m', zlen done + zlen rest)) =
         Some (done ++ space_encode rest ++ 0 :: post', zlen done + zlen (space_encode rest)) /\
         zlen (space_encode rest) + 1 + zlen post' = zlen rest + zlen post /\
         skipn (Z.to_nat mx) (done ++ space_encode rest ++ 0 :: post') = skipn (Z.to_nat mx) (done ++ rest ++ post)
    else exists m', (if mx <=? zlen done + zlen rest then Some (done ++ rest ++ post, -1) else do m' <- mwrite (done ++ rest ++ post) (zlen done + zlen rest) [0]; Some (m', zlen done + zlen rest)) = Some (m', -1) /\
         zlen m' = zlen (done ++ rest ++ post) /\ skipn (Z.to_nat mx) m' = skipn (Z.to_nat mx) (done ++ rest ++ post)).
  { intros done rest post mx NI HM. rewrite space_encode_clean by assumption. pose proof (zlen_nonneg done). pose proof (zlen_nonneg rest).
    destruct (Z.ltb_spec (zlen done + zlen rest) mx) as [L|L].
    - destruct (Z.leb_spec mx (zlen done + zlen rest)); [lia|]. destruct post as [|x post]; [change (zlen (@nil Z)) with 0 in HM; lia|].
      exists post. rewrite (mwrite_at (done ++ rest) [x] [0] post); [|rewrite <- !app_assoc; reflexivity|rewrite zlen_app; reflexivity|reflexivity].
      cbn [obind app]. rewrite <- !app_assoc. rewrite zlen_cons. split; [reflexivity|]. split; [lia|].
      rewrite !(app_assoc done rest). rewrite !skipn_app. f_equal.
      assert (LE : (length (done ++ rest) < Z.to_nat mx)%nat) by (rewrite app_length; unfold zlen in *; lia).
      destruct (Z.to_nat mx - length (done ++ rest))%nat eqn:Q; [lia|]. reflexivity.
    - destruct (Z.leb_spec mx (zlen done + zlen rest)); [|lia]. exists (done ++ rest ++ post). auto. }
  induction fuel as [|fuel IH]; intros done rest post mx HF HM.
  - destruct rest; [|cbn in HF; lia]. cbn [encode_loop]. apply FIN; [cbn; tauto|assumption].
  - cbn [encode_loop]. destruct (Z.ltb_spec (zlen done) (zlen done + zlen rest)) as [L|L].
    2: { assert (rest = []) as -> by (apply zlen_zero; pose proof (zlen_nonneg rest); lia). apply FIN; [cbn; tauto|assumption]. }
    unfold memchr. rewrite (mread_at done rest post) by (try reflexivity; lia). cbn [obind].
    pose proof (find_byte_spec 32 rest (zlen done)) as F. destruct (find_byte rest 32 (zlen done)) as [q|].
    2: { apply FIN; assumption. }
    destruct F as (a & b & -> & NA & ->). rewrite space_encode_app, (space_encode_clean a) by exact NA.
    change (space_encode (32 :: b)) with (37 :: 50 :: 48 :: space_encode b).
    rewrite !zlen_app, !zlen_cons in *. pose proof (zlen_nonneg b). pose proof (zlen_nonneg done). pose proof (zlen_nonneg a). pose proof (zlen_nonneg post).
    pose proof (space_encode_len b) as LB.
    destruct (Z.leb_spec mx (zlen done + (zlen a + (1 + zlen b)) + 2)) as [C|C].
    { destruct (Z.ltb_spec (zlen done + (zlen a + (1 + (1 + (1 + zlen (space_encode b)))))) mx); [unfold zlen in *; lia|].
      exists (done ++ (a ++ 32 :: b) ++ post). split; [reflexivity|]. rewrite !zlen_app, zlen_cons. auto. }
    destruct post as [|x [|y post]]; [change (zlen (@nil Z)) with 0 in HM; lia|change (zlen [x]) with 1 in HM; lia|].
    unfold memmove.
    rewrite (mread_at (done ++ a ++ [32]) b (x :: y :: post)); [|rewrite <- !app_assoc; reflexivity|rewrite !zlen_app; change (zlen [32]) with 1; lia|lia].
    cbn [obind].
    (* 32 :: b ++ x :: y :: post, with b copied two places to the right *)
    assert (TJ : exists j1 j2, mwrite (done ++ (a ++ 32 :: b) ++ x :: y :: post) (zlen done + zlen a + 3) b
                 = Some ((done ++ a ++ [32; j1; j2]) ++ b ++ post)).
    { assert (X : exists j1 j2 b', b ++ [x; y] = j1 :: j2 :: b' /\ length b' = length b).
      { destruct b as [|b1 [|b2 b]].
        - exists x, y, []. auto.
        - exists b1, x, [y]. auto.
        - exists b1, b2, (b ++ [x; y]). split; [reflexivity|]. rewrite app_length. cbn [length]. lia. }
      destruct X as (j1 & j2 & b' & X & LX). exists j1, j2.
      rewrite (mwrite_at (done ++ a ++ [32; j1; j2]) b' b post).
      - reflexivity.
      - rewrite <- !app_assoc. f_equal. f_equal. cbn [app]. f_equal. change (x :: y :: post) with ([x; y] ++ post). rewrite app_assoc, X. reflexivity.
      - rewrite !zlen_app. change (zlen [32; j1; j2]) with 3. lia.
      - lia. }
    destruct TJ as (j1 & j2 & TJ). rewrite TJ. cbn [obind].
    rewrite (mwrite_at (done ++ a) [32] [37] (j1 :: j2 :: b ++ post)); [|rewrite <- !app_assoc; reflexivity|rewrite zlen_app; lia|reflexivity].
    cbn [obind].
    rewrite (mwrite_at (done ++ a ++ [37]) [j1] [50] (j2 :: b ++ post)); [|rewrite <- !app_assoc; reflexivity|rewrite !zlen_app; change (zlen [37]) with 1; lia|reflexivity].
    cbn [obind].
    rewrite (mwrite_at (done ++ a ++ [37; 50]) [j2] [48] (b ++ post)); [|rewrite <- !app_assoc; reflexivity|rewrite !zlen_app; change (zlen [37; 50]) with 2; lia|reflexivity].
    cbn [obind].
    specialize (IH (done ++ a ++ [37; 50; 48]) b post mx).
    assert (LEN : zlen (done ++ a ++ [37; 50; 48]) = zlen done + zlen a + 3) by (rewrite !zlen_app; change (zlen [37; 50; 48]) with 3; lia).
    rewrite LEN in IH. rewrite !zlen_cons in HM.
    specialize (IH ltac:(rewrite app_length in HF; cbn [length] in HF; lia) ltac:(lia)).
    replace ((done ++ a ++ [37; 50]) ++ [48] ++ b ++ post) with ((done ++ a ++ [37; 50; 48]) ++ b ++ post) by (rewrite <- !app_assoc; reflexivity).
    replace (zlen done + (zlen a + (1 + zlen b)) + 2) with (zlen done + zlen a + 3 + zlen b) by lia.
    replace (zlen done + (zlen a + (1 + (1 + (1 + zlen (space_encode b)))))) with (zlen done + zlen a + 3 + zlen (space_encode b)) by lia.
    assert (SK : skipn (Z.to_nat mx) ((done ++ a ++ [37; 50; 48]) ++ b ++ post) = skipn (Z.to_nat mx) (done ++ (a ++ 32 :: b) ++ x :: y :: post)).
    { assert (LE : (length done + length a + length b + 3 < Z.to_nat mx)%nat) by (unfold zlen in *; lia).
      replace ((done ++ a ++ [37; 50; 48]) ++ b ++ post) with (((done ++ a ++ [37; 50; 48]) ++ b) ++ post) by (rewrite <- !app_assoc; reflexivity).
      replace (done ++ (a ++ 32 :: b) ++ x :: y :: post) with (((done ++ a) ++ 32 :: b ++ [x; y]) ++ post) by (rewrite <- !app_assoc; cbn; rewrite <- !app_assoc; reflexivity).
      rewrite (skipn_app _ ((done ++ a ++ [37; 50; 48]) ++ b) post), (skipn_app _ ((done ++ a) ++ 32 :: b ++ [x; y]) post).
      rewrite (skipn_all2 ((done ++ a ++ [37; 50; 48]) ++ b)) by (rewrite !app_length; cbn [length]; lia).
      rewrite (skipn_all2 ((done ++ a) ++ 32 :: b ++ [x; y])) by (rewrite !app_length; cbn [length]; rewrite !app_length; cbn [length]; lia).
      cbn [app]. f_equal. rewrite !app_length; cbn [length]; rewrite ?app_length; cbn [length]. lia. }
    destruct (zlen done + zlen a + 3 + zlen (space_encode b) <? mx).
    + destruct IH as (post' & E & Z1 & SKe). rewrite E. exists post'. split; [|split].
      * f_equal. f_equal. rewrite <- !app_assoc. reflexivity.
      * rewrite !zlen_cons. lia.
      * replace (done ++ (a ++ 37 :: 50 :: 48 :: space_encode b) ++ 0 :: post') with ((done ++ a ++ [37; 50; 48]) ++ space_encode b ++ 0 :: post') by (rewrite <- !app_assoc; reflexivity).
        rewrite SKe. exact SK.
    + destruct IH as (m' & E & Z1 & SKe). rewrite E. exists m'. split; [reflexivity|]. split; [|rewrite SKe; exact SK].
      rewrite Z1. rewrite !zlen_app, !zlen_cons. change (zlen (@nil Z)) with 0. lia.
Qed.

(** C37.  Encoding into a buffer of [mx] bytes touches nothing beyond it,
    succeeds exactly when the encoded string and its terminator fit, and then
    leaves the encoded, NUL-terminated string in the buffer. *)
Theorem url_encode_exact : forall s free after, 
  let mx := zlen s + zlen free in
  exists m' ret, http_url_encode (s ++ free ++ after) (zlen s) mx = Some (m', ret) /\
    length m' = length (s ++ free ++ after) /\ skipn (Z.to_nat mx) m' = after /\
    (if zlen (space_encode s) <? mx
     then ret = zlen (space_encode s) /\ firstn (S (length (space_encode s))) m' = space_encode s ++ [0]
     else ret = -1).
Proof.
  intros s free after mx. unfold http_url_encode.
  pose proof (encode_loop_spec (Z.to_nat (zlen s)) [] s (free ++ after) mx ltac:(unfold zlen; lia)) as H. cbn [app] in H.
  change (zlen (@nil Z)) with 0 in H. cbn [Z.add] in H. rewrite zlen_app in H. pose proof (zlen_nonneg after). specialize (H ltac:(lia)).
  assert (SK : skipn (Z.to_nat mx) (s ++ free ++ after) = after).
  { rewrite app_assoc. replace (Z.to_nat mx) with (length (s ++ free)) by (rewrite app_length; unfold mx, zlen; lia).
    rewrite skipn_app, Nat.sub_diag, skipn_all. reflexivity. }
  destruct (Z.ltb_spec (zlen (space_encode s)) mx).
  - destruct H as (post' & E & L & K). exists (space_encode s ++ 0 :: post'), (zlen (space_encode s)). split; [exact E|].
    split; [rewrite !app_length; cbn [length]; unfold zlen in *; lia|]. split; [congruence|]. split; [reflexivity|].
    replace (S (length (space_encode s))) with (length (space_encode s ++ [0])) by (rewrite app_length; cbn; lia).
    change (0 :: post') with ([0] ++ post'). rewrite app_assoc, firstn_app, Nat.sub_diag, firstn_all. cbn. apply app_nil_r.
  - destruct H as (m' & E & L & K). exists m', (-1). split; [exact E|]. split; [unfold zlen in L; lia|]. split; [congruence|reflexivity].
Qed.

(** C37.  Decoding an encoded string gives back the original (for strings the
    encoder leaves decodable, i.e. without a percent sign of their own). *)
Theorem url_round_trip : forall s, ~ In 37 s -> pct_decode (space_encode s) = inr s.
Proof.
  unfold space_encode. induction s as [|c s IH]; intros H; cbn [flat_map]; [reflexivity|]. specialize (IH ltac:(cbn in H; tauto)). destruct (Z.eqb_spec c 32) as [-> |D].
  - cbn [app pct_decode]. cbn -[pct_decode flat_map]. rewrite IH. reflexivity.
  - cbn [app pct_decode]. destruct (Z.eqb_spec c 37) as [-> |D2]; [cbn in H; tauto|]. rewrite IH. reflexivity.
Qed.
(** The same on the code: encode in place, then decode in place. *)
Theorem url_code_round_trip : forall s free after m1 r1, Forall byte s -> ~ In 37 s ->
  http_url_encode (s ++ free ++ after) (zlen s) (zlen s + zlen free) = Some (m1, r1) -> r1 <> -1 ->
  exists m2, http_url_decode m1 r1 = Some (m2, zlen s) /\ firstn (length s) m2 = s.
Proof.
  intros s free after m1 r1 HB NP E NE. destruct (url_encode_exact s free after) as (m' & ret & E' & L & SK & C).
  rewrite E in E'. assert (m' = m1 /\ ret = r1) by (split; congruence). destruct H as [-> ->].
  destruct (zlen (space_encode s) <? zlen s + zlen free); [|congruence]. destruct C as [-> FN].
  assert (M1 : m1 = space_encode s ++ skipn (length (space_encode s)) m1).
  { rewrite <- (firstn_skipn (length (space_encode s)) m1) at 1. f_equal.
    assert (Q : firstn (length (space_encode s)) (firstn (S (length (space_encode s))) m1) = space_encode s).
    { rewrite FN, firstn_app, Nat.sub_diag, firstn_all. cbn. apply app_nil_r. }
    rewrite firstn_firstn in Q. rewrite Nat.min_l in Q by lia. exact Q. }
  assert (BE : Forall byte (space_encode s)).
  { clear - HB. induction s as [|c s IH]; cbn; [constructor|]. inversion HB; subst. apply Forall_app. split; [|auto].
    destruct (c =? 32); repeat constructor; unfold byte in *; lia. }
  rewrite M1. destruct (url_decode_exact (space_encode s) (skipn (length (space_encode s)) m1) BE) as (m2 & ret2 & E2 & _ & C2).
  rewrite url_round_trip in C2 by exact NP. destruct C2 as (-> & _ & F2). exists m2. split; assumption.
Qed.

Print Assumptions url_decode_exact.
Print Assumptions url_encode_exact.
Print Assumptions url_round_trip.
Print Assumptions url_code_round_trip.

(** "/a%20b" and "%2", "/%zz"; "/a b" into a buffer of 7 and of 6 bytes. *)
Example ex_dec : http_url_decode [47; 97; 37; 50; 48; 98; 7] 6 = Some ([47; 97; 32; 98; 48; 98; 7], 4) /\
  http_url_decode [37; 50; 65] 2 = Some ([37; 50; 65], -1) /\ http_url_decode [47; 37; 122; 122] 4 = Some ([47; 37; 122; 122], -2).
Proof. repeat split; vm_compute; reflexivity. Qed.
Example ex_enc : http_url_encode [47; 97; 32; 98; 1; 1; 1; 9] 4 7 = Some ([47; 97; 37; 50; 48; 98; 0; 9], 6) /\
  option_map snd (http_url_encode [47; 97; 32; 98; 1; 1; 1; 9] 4 6) = Some (-1).
Proof. split; vm_compute; reflexivity. Qed.
