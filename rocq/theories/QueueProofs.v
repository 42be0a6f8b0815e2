(** Proofs about the receive ring. *)
From Verif Require Import Base Seq SeqProps Queue.

(** [QWF q b l]: the ring holds the bytes [l], the first of which has sequence
    number [b]. *)
Definition QWF (q : queue) (l : list Z) : Prop :=
  1 < q_size q <= 2^31 /\ zlen (q_data q) = q_size q /\
  0 <= q_head q < q_size q /\ 0 <= q_tail q < q_size q /\
  zlen l = (q_head q - q_tail q) mod q_size q /\
  (forall i, 0 <= i < zlen l ->
     nth_error (q_data q) (Z.to_nat ((q_tail q + i) mod q_size q)) = nth_error l (Z.to_nat i)).

Lemma mod_cases a n : 0 < n -> - n <= a < 2 * n ->
  a mod n = if a <? 0 then a + n else if a <? n then a else a - n.
Proof.
  intros. destruct (a <? 0) eqn:E1; [|destruct (a <? n) eqn:E2].
  - symmetry. apply Z.mod_unique with (q := -1); lia.
  - apply Z.mod_small. lia.
  - symmetry. apply Z.mod_unique with (q := 1); lia.
Qed.

Lemma queue_space_spec q l : QWF q l -> queue_space q = q_size q - 1 - zlen l /\ 0 <= queue_space q.
Proof.
  intros (Hs & Hd & Hh & Ht & Hl & _). rewrite Hl. rewrite (mod_cases (q_head q - q_tail q)) by lia.
  unfold queue_space, u32.
  destruct (q_size q <=? 1) eqn:E; [lia|].
  destruct (q_tail q <=? q_head q) eqn:E1; destruct (q_head q - q_tail q <? 0) eqn:E2; try lia.
  all: try (destruct (q_head q - q_tail q <? q_size q) eqn:E3; lia).
Qed.
Lemma queue_len_spec q l : QWF q l -> queue_len q = zlen l.
Proof.
  intros H. pose proof (queue_space_spec _ _ H) as [HS HS0].
  pose proof H as (Hs & _). pose proof (zlen_nonneg l). unfold queue_len.
  destruct (q_size q <=? 1) eqn:E; [lia|]. unfold u32.
  rewrite (Z.mod_small (q_size q - 1)) by lia. rewrite Z.mod_small by lia. lia.
Qed.

Lemma QWF_init data size b : 1 < size <= 2^31 -> zlen data = size -> QWF (queue_init data size b) [].
Proof.
  intros. unfold QWF, queue_init; cbn. repeat split; try lia.
Qed.

(** Data after writing [data] circularly at [h]. *)
Lemma ring_write (m : list Z) size h (data : list Z) (m' : list Z) : zlen m = size -> 0 <= h < size -> size <= 2^31 -> zlen data < size ->
  (if size <? u32 (h + zlen data) then
     (do a <- mread data 0 (size - h);
      do b <- mread data (size - h) (zlen data - (size - h));
      do m1 <- mwrite m h a; mwrite m1 0 b)
   else mwrite m h data) = Some m' ->
  zlen m' = size /\
  (forall j, 0 <= j < zlen data -> nth_error m' (Z.to_nat ((h + j) mod size)) = nth_error data (Z.to_nat j)) /\
  (forall k, 0 <= k < size -> (forall j, 0 <= j < zlen data -> (h + j) mod size <> k) ->
     nth_error m' (Z.to_nat k) = nth_error m (Z.to_nat k)).
Proof.
  intros Hm Hh Hs Hd. pose proof (zlen_nonneg data) as HN.
  assert (HU : u32 (h + zlen data) = h + zlen data) by (unfold u32; apply Z.mod_small; lia).
  rewrite HU. destruct (size <? h + zlen data) eqn:E.
  - intros H. destruct (mread data 0 (size - h)) as [a|] eqn:EA; [|discriminate]. cbn [obind] in H.
    destruct (mread data (size - h) _) as [b|] eqn:EB; [|discriminate]. cbn [obind] in H.
    destruct (mwrite m h a) as [m1|] eqn:E1; [|discriminate]. cbn [obind] in H.
    pose proof (mread_some _ _ _ _ EA) as (_ & _ & _ & La). pose proof (mread_some _ _ _ _ EB) as (_ & _ & _ & Lb).
    pose proof (mwrite_some _ _ _ _ E1) as (_ & _ & L1). pose proof (mwrite_some _ _ _ _ H) as (_ & _ & L2).
    split; [lia|]. split.
    + intros j Hj. rewrite (mwrite_nth _ _ _ _ _ H).
      rewrite (mod_cases (h + j)) by lia.
      destruct (h + j <? 0) eqn:C0; [lia|]. destruct (h + j <? size) eqn:C1.
      * destruct ((Z.of_nat (Z.to_nat (h + j)) <? 0) || (0 + zlen b <=? Z.of_nat (Z.to_nat (h + j)))) eqn:C2; [|lia].
        rewrite (mwrite_nth _ _ _ _ _ E1).
        destruct ((Z.of_nat (Z.to_nat (h + j)) <? h) || (h + zlen a <=? Z.of_nat (Z.to_nat (h + j)))) eqn:C3; [lia|].
        rewrite (mread_nth _ _ _ _ _ EA).
        destruct (Z.of_nat (Z.to_nat (h + j) - Z.to_nat h) <? size - h) eqn:C4; [|lia]. f_equal. lia.
      * destruct ((Z.of_nat (Z.to_nat (h + j - size)) <? 0) || (0 + zlen b <=? Z.of_nat (Z.to_nat (h + j - size)))) eqn:C2; [lia|].
        rewrite (mread_nth _ _ _ _ _ EB).
        destruct (Z.of_nat (Z.to_nat (h + j - size) - Z.to_nat 0) <? zlen data - (size - h)) eqn:C4; [|lia]. f_equal. lia.
    + intros k Hk Hne. rewrite (mwrite_nth _ _ _ _ _ H).
      destruct ((Z.of_nat (Z.to_nat k) <? 0) || (0 + zlen b <=? Z.of_nat (Z.to_nat k))) eqn:C2.
      2:{ exfalso. apply (Hne (size - h + k)); [lia|]. rewrite (mod_cases (h + (size - h + k))) by lia.
          destruct (h + (size - h + k) <? 0) eqn:D1; [lia|]. destruct (h + (size - h + k) <? size) eqn:D2; lia. }
      rewrite (mwrite_nth _ _ _ _ _ E1).
      destruct ((Z.of_nat (Z.to_nat k) <? h) || (h + zlen a <=? Z.of_nat (Z.to_nat k))) eqn:C3; [reflexivity|].
      exfalso. apply (Hne (k - h)); [lia|]. rewrite Z.mod_small by lia. lia.
  - intros H. pose proof (mwrite_some _ _ _ _ H) as (_ & _ & L2). split; [lia|]. split.
    + intros j Hj. rewrite (mwrite_nth _ _ _ _ _ H). rewrite Z.mod_small by lia.
      destruct ((Z.of_nat (Z.to_nat (h + j)) <? h) || (h + zlen data <=? Z.of_nat (Z.to_nat (h + j)))) eqn:C; [lia|].
      f_equal. lia.
    + intros k Hk Hne. rewrite (mwrite_nth _ _ _ _ _ H).
      destruct ((Z.of_nat (Z.to_nat k) <? h) || (h + zlen data <=? Z.of_nat (Z.to_nat k))) eqn:C; [reflexivity|].
      exfalso. apply (Hne (k - h)); [lia|]. rewrite Z.mod_small by lia. lia.
Qed.
Lemma ring_write_ok (m : list Z) size h (data : list Z) : zlen m = size -> 0 <= h < size -> size <= 2^31 -> zlen data < size ->
  exists m', (if size <? u32 (h + zlen data) then
     (do a <- mread data 0 (size - h);
      do b <- mread data (size - h) (zlen data - (size - h));
      do m1 <- mwrite m h a; mwrite m1 0 b)
   else mwrite m h data) = Some m'.
Proof.
  intros Hm Hh Hs Hd. pose proof (zlen_nonneg data) as HN.
  assert (HU : u32 (h + zlen data) = h + zlen data) by (unfold u32; apply Z.mod_small; lia).
  rewrite HU. destruct (size <? h + zlen data) eqn:E.
  - destruct (mread_in data 0 (size - h)) as [a EA]; [lia..|]. rewrite EA. cbn [obind].
    destruct (mread_in data (size - h) (zlen data - (size - h))) as [b EB]; [lia..|]. rewrite EB. cbn [obind].
    pose proof (mread_some _ _ _ _ EA) as (_ & _ & _ & La). pose proof (mread_some _ _ _ _ EB) as (_ & _ & _ & Lb).
    destruct (mwrite_in m h a) as [m1 E1]; [lia..|]. rewrite E1. cbn [obind].
    pose proof (mwrite_some _ _ _ _ E1) as (_ & _ & L1). apply mwrite_in; lia.
  - apply mwrite_in; lia.
Qed.

(** Effect of an insert on the abstract contents. *)
Definition ins_abs (size base : Z) (l data : list Z) (seq : Z) : (Z * list Z) * Z :=
  if size - 1 - zlen l <? zlen data then ((base, l), -1)
  else if zlen l =? 0 then ((seq, data), 0)
  else let rel := tcp_seq_diff seq base in
       if rel <? 0 then ((base, l), -1)
       else if rel <? zlen l then ((base, l), 0)
       else if zlen l <? rel then ((base, l), -1)
       else ((base, l ++ data), 0).

Lemma queue_insert_spec q l data seq : QWF q l ->
  exists q' r, queue_insert q data seq = Some (q', r) /\
    let '((b', l'), r') := ins_abs (q_size q) (q_base q) l data seq in
    r = r' /\ QWF q' l' /\ q_base q' = b' /\ q_size q' = q_size q.
Proof.
  intros HQ. pose proof (queue_space_spec _ _ HQ) as [HS HS0]. pose proof (queue_len_spec _ _ HQ) as HL.
  pose proof HQ as (Hs & Hd & Hh & Ht & Hl & Hc). pose proof (zlen_nonneg data) as HN. pose proof (zlen_nonneg l) as HNl.
  unfold queue_insert, ins_abs. rewrite HS, HL.
  destruct (q_size q <=? 1) eqn:E0; [lia|].
  destruct (q_size q - 1 <? zlen data) eqn:E1.
  { destruct (q_size q - 1 - zlen l <? zlen data) eqn:E2; [|lia].
    exists q, (-1). split; [reflexivity|]. auto. }
  destruct (q_size q - 1 - zlen l <? zlen data) eqn:E2.
  { exists q, (-1). split; [reflexivity|]. auto. }
  destruct (zlen l =? 0) eqn:E3.
  - destruct (mwrite_in (q_data q) 0 data) as [m Em]; [lia..|]. rewrite Em. cbn [obind].
    eexists _, 0. split; [reflexivity|]. split; [reflexivity|]. cbn [q_base q_size]. split; [|auto].
    pose proof (mwrite_some _ _ _ _ Em) as (_ & _ & Lm).
    unfold QWF; cbn [q_size q_data q_head q_tail]. repeat split; try lia.
    + rewrite Z.mod_small by lia. lia.
    + intros i Hi. rewrite (mwrite_nth _ _ _ _ _ Em). rewrite Z.mod_small by lia.
      destruct ((Z.of_nat (Z.to_nat (0 + i)) <? 0) || (0 + zlen data <=? Z.of_nat (Z.to_nat (0 + i)))) eqn:C; [lia|].
      f_equal. lia.
  - cbv zeta. destruct (tcp_seq_diff seq (q_base q) <? 0) eqn:E4.
    { exists q, (-1). split; [reflexivity|]. auto. }
    assert (HR : tcp_seq_diff seq (q_base q) < 2147483648).
    { unfold tcp_seq_diff, s32. destruct (_ <? 2147483648) eqn:E5; [lia|].
      pose proof (Z.mod_pos_bound (u32 (seq - q_base q)) 4294967296). lia. }
    assert (HU : u32 (tcp_seq_diff seq (q_base q)) = tcp_seq_diff seq (q_base q)).
    { unfold u32 at 1. apply Z.mod_small. lia. }
    rewrite HU. destruct (tcp_seq_diff seq (q_base q) <? zlen l) eqn:E5.
    { exists q, 0. split; [reflexivity|]. auto. }
    destruct (zlen l <? tcp_seq_diff seq (q_base q)) eqn:E6.
    { exists q, (-1). split; [reflexivity|]. auto. }
    destruct (ring_write_ok (q_data q) (q_size q) (q_head q) data) as [m Em]; [lia..|].
    rewrite Em. cbn [obind].
    assert (HX1 : q_size q <= 2^31) by lia. assert (HX2 : zlen data < q_size q) by lia.
    destruct (ring_write _ _ _ _ _ Hd Hh HX1 HX2 Em) as (Lm & Hnew & Hold).
    assert (HUh : u32 (q_head q + zlen data) = q_head q + zlen data) by (unfold u32; apply Z.mod_small; lia).
    rewrite HUh. eexists _, 0. split; [reflexivity|]. split; [reflexivity|]. cbn [q_base q_size]. split; [|auto].
    assert (HE : (q_head q + zlen data) mod q_size q = if q_head q + zlen data <? q_size q then q_head q + zlen data else q_head q + zlen data - q_size q).
    { rewrite (mod_cases (q_head q + zlen data)) by lia.
      destruct (q_head q + zlen data <? 0) eqn:Q; [lia|reflexivity]. }
    pose proof (Z.mod_pos_bound (q_head q + zlen data) (q_size q) ltac:(lia)) as HB.
    assert (Hl' : zlen l = if q_head q - q_tail q <? 0 then q_head q - q_tail q + q_size q else q_head q - q_tail q).
    { rewrite Hl, (mod_cases (q_head q - q_tail q)) by lia.
      destruct (q_head q - q_tail q <? 0) eqn:Q; [reflexivity|].
      destruct (q_head q - q_tail q <? q_size q) eqn:Q2; [reflexivity|lia]. }
    assert (Hl2 : (q_head q < q_tail q /\ zlen l = q_head q - q_tail q + q_size q) \/
                  (q_tail q <= q_head q /\ zlen l = q_head q - q_tail q)).
    { destruct (q_head q - q_tail q <? 0) eqn:Q; lia. }
    assert (HP : forall i, 0 <= i < zlen l + zlen data -> 
       (q_tail q + i) mod q_size q = if q_tail q + i <? q_size q then q_tail q + i else q_tail q + i - q_size q).
    { intros i Hi. rewrite (mod_cases (q_tail q + i)) by lia.
      destruct (q_tail q + i <? 0) eqn:Q; [lia|reflexivity]. }
    clear Hl Hl' HE.
    unfold QWF; cbn [q_size q_data q_head q_tail]. rewrite zlen_app. repeat split; try lia.
    + clear HB. rewrite Zminus_mod_idemp_l.
      replace (q_head q + zlen data - q_tail q) with ((q_head q - q_tail q) + zlen data) by lia.
      destruct Hl2 as [[H1 H2]|[H1 H2]].
      * apply Z.mod_unique with (q := -1); lia.
      * rewrite Z.mod_small; lia.
    + clear HB. intros i Hi. destruct (Z.lt_ge_cases i (zlen l)) as [Hlt|Hge].
      * rewrite nth_error_app1 by (unfold zlen in *; lia). rewrite <- Hc by lia. apply Hold.
        -- apply Z.mod_pos_bound. lia.
        -- intros j Hj. rewrite (HP i) by lia. rewrite (mod_cases (q_head q + j)) by lia.
           destruct (q_head q + j <? 0) eqn:Q1; [lia|].
           destruct (q_head q + j <? q_size q) eqn:Q2; destruct (q_tail q + i <? q_size q) eqn:Q3; lia.
      * rewrite nth_error_app2 by (unfold zlen in *; lia).
        replace (Z.to_nat i - length l)%nat with (Z.to_nat (i - zlen l)) by (unfold zlen in *; lia).
        rewrite <- Hnew by lia. f_equal. f_equal.
        rewrite (HP i) by lia. rewrite (mod_cases (q_head q + (i - zlen l))) by lia.
        destruct (q_head q + (i - zlen l) <? 0) eqn:Q1; [lia|].
        destruct (q_head q + (i - zlen l) <? q_size q) eqn:Q2; destruct (q_tail q + i <? q_size q) eqn:Q3; lia.
Qed.

(** Pop. *)
Lemma queue_pop_spec q l len : QWF q l -> 0 <= len < 2^32 ->
  exists q' bs r, queue_pop q len = Some (q', (bs, r)) /\
    (if zlen l =? 0 then q' = q /\ bs = [] /\ r = - EAGAIN
     else r = Z.min len (zlen l) /\ bs = firstn (Z.to_nat r) l /\
          QWF q' (skipn (Z.to_nat r) l) /\ q_base q' = u32 (q_base q + r) /\ q_size q' = q_size q).
Proof.
  intros HQ Hlen. pose proof (queue_len_spec _ _ HQ) as HL.
  pose proof HQ as (Hs & Hd & Hh & Ht & Hl & Hc). pose proof (zlen_nonneg l) as HNl.
  unfold queue_pop. rewrite HL. destruct (zlen l =? 0) eqn:E0.
  { exists q, [], (- EAGAIN). auto. }
  set (n := if zlen l <? len then zlen l else len).
  assert (Hn : n = Z.min len (zlen l)) by (subst n; destruct (zlen l <? len) eqn:E; lia).
  assert (Hlm : zlen l < q_size q) by (rewrite Hl; apply Z.mod_pos_bound; lia).
  assert (HU : u32 (q_tail q + n) = q_tail q + n) by (unfold u32; apply Z.mod_small; lia).
  rewrite HU.
  assert (RD : exists bs, (if q_size q <? q_tail q + n then
      (let first_chunk := q_size q - q_tail q in
       do a <- mread (q_data q) (q_tail q) first_chunk;
       do b <- mread (q_data q) 0 (n - first_chunk); Some (a ++ b))
      else mread (q_data q) (q_tail q) n) = Some bs /\ bs = firstn (Z.to_nat n) l).
  { cbv zeta. destruct (q_size q <? q_tail q + n) eqn:E.
    - destruct (mread_in (q_data q) (q_tail q) (q_size q - q_tail q)) as [a EA]; [lia..|].
      destruct (mread_in (q_data q) 0 (n - (q_size q - q_tail q))) as [b EB]; [lia..|].
      rewrite EA. cbn [obind]. rewrite EB. cbn [obind]. eexists; split; [reflexivity|].
      pose proof (mread_some _ _ _ _ EA) as (_ & _ & _ & La). pose proof (mread_some _ _ _ _ EB) as (_ & _ & _ & Lb).
      apply nth_error_ext. intros i.
      destruct (Z.lt_ge_cases (Z.of_nat i) n) as [Hi|Hi].
      + rewrite nth_error_firstn_lt by lia.
        specialize (Hc (Z.of_nat i) ltac:(lia)). rewrite Nat2Z.id in Hc. rewrite <- Hc.
        rewrite (mod_cases (q_tail q + Z.of_nat i)) by lia.
        destruct (q_tail q + Z.of_nat i <? 0) eqn:Q1; [lia|].
        destruct (q_tail q + Z.of_nat i <? q_size q) eqn:Q2.
        * rewrite nth_error_app1 by (unfold zlen in *; lia). rewrite (mread_nth _ _ _ _ _ EA).
          destruct (Z.of_nat i <? q_size q - q_tail q) eqn:Q3; [|lia]. f_equal. lia.
        * rewrite nth_error_app2 by (unfold zlen in *; lia). rewrite (mread_nth _ _ _ _ _ EB).
          destruct (Z.of_nat (i - length a) <? n - (q_size q - q_tail q)) eqn:Q3; [|unfold zlen in *; lia].
          f_equal. unfold zlen in *. lia.
      + rewrite nth_error_firstn_ge by lia. apply nth_error_None. rewrite app_length. unfold zlen in *. lia.
    - destruct (mread_in (q_data q) (q_tail q) n) as [a EA]; [lia..|]. exists a. split; [assumption|].
      apply nth_error_ext. intros i. rewrite (mread_nth _ _ _ _ _ EA).
      destruct (Z.of_nat i <? n) eqn:Q.
      + rewrite nth_error_firstn_lt by lia.
        specialize (Hc (Z.of_nat i) ltac:(lia)). rewrite Nat2Z.id in Hc. rewrite <- Hc.
        rewrite (mod_cases (q_tail q + Z.of_nat i)) by lia.
        destruct (q_tail q + Z.of_nat i <? 0) eqn:Q1; [lia|].
        destruct (q_tail q + Z.of_nat i <? q_size q) eqn:Q2; [f_equal; lia|lia].
      + rewrite nth_error_firstn_ge by lia. reflexivity. }
  destruct RD as (bs & RD & Hbs). cbv zeta in RD. cbv zeta. rewrite RD. cbn [obind].
  eexists _, bs, n. split; [reflexivity|]. split; [assumption|]. split; [assumption|]. cbn [q_base q_size].
  split; [|auto].
  pose proof (Z.mod_pos_bound (q_tail q + n) (q_size q) ltac:(lia)) as HB.
  assert (HZ : zlen (skipn (Z.to_nat n) l) = zlen l - n) by (unfold zlen in *; rewrite skipn_length; lia).
  unfold QWF; cbn [q_size q_data q_head q_tail]. rewrite HZ. repeat split; try lia.
  - rewrite Zminus_mod_idemp_r. rewrite Hl in *.
    replace (q_head q - (q_tail q + n)) with ((q_head q - q_tail q) - n) by lia.
    rewrite (Zminus_mod (q_head q - q_tail q) n).
    rewrite (Z.mod_small n) by lia. symmetry. apply Z.mod_small. lia.
  - intros i Hi. rewrite Zplus_mod_idemp_l. rewrite nth_error_skipn.
    replace (q_tail q + n + i) with (q_tail q + (n + i)) by lia.
    rewrite Hc by lia. f_equal. lia.
Qed.
