(** Invariant proofs for the receiving half of a TCP connection. *)
From Coq Require Import Permutation.
From Verif Require Import Base ListUtil Seq SeqProps Queue QueueProofs HttpUrl TcpRecv TcpSack.

(** [P x b]: byte [b] may stand at stream offset [x] (offset 0 is the first byte after
    the SYN, whose sequence number is [isn]). *)
Definition slot_inv (isn : Z) (P : Z -> Z -> Prop) (lo hi : Z) (s : slot) : Prop :=
  zlen (o_data s) = 1460 /\
  (o_used s = true -> exists x, o_seq s = sq isn x /\ 1 <= o_len s <= 1460 /\ lo <= x <= hi /\
     forall i, 0 <= i < o_len s -> exists b, nth_error (o_data s) (Z.to_nat i) = Some b /\ P (x + i) b).
Lemma slot_inv_mono isn P lo hi lo' hi' s : lo' <= lo -> hi <= hi' -> slot_inv isn P lo hi s -> slot_inv isn P lo' hi' s.
Proof. intros A B (H1 & H2). split; [exact H1|]. intros U. destruct (H2 U) as (x & E1 & E2 & E3 & E4). exists x. repeat split; auto; lia. Qed.

(** The ring holds [l], the stream bytes from offset [d]. *)
Definition ring (isn : Z) (P : Z -> Z -> Prop) (cap : Z) (q : queue) (d : Z) (l : list Z) : Prop :=
  QWF q l /\ q_size q = cap + 1 /\ (l <> [] -> q_base q = sq isn d) /\
  (forall i b, nth_error l i = Some b -> P (d + Z.of_nat i) b) /\ zlen l <= cap.
Definition seg_bytes (P : Z -> Z -> Prop) (x : Z) (data : list Z) : Prop :=
  forall i b, nth_error data i = Some b -> P (x + Z.of_nat i) b.

Lemma sq_inc isn x n : 0 <= n < 4294967296 -> tcp_seq_inc (sq isn x) n = sq isn (x + n).
Proof. intros H. unfold sq. rewrite seq_inc_adds by exact H. f_equal. lia. Qed.
Lemma sq_ltb isn x y : Z.abs (x - y) < 2147483648 -> tcp_seq_lt (sq isn x) (sq isn y) = (x <? y).
Proof. intros H. unfold sq. rewrite seq_lt_order by lia. lia. Qed.
Lemma sq_leqb isn x y : Z.abs (x - y) < 2147483648 -> tcp_seq_leq (sq isn x) (sq isn y) = (x <=? y).
Proof. intros H. unfold sq. rewrite seq_leq_order by lia. lia. Qed.
Lemma sq_diffz isn x y : - 2147483648 <= x - y < 2147483648 -> tcp_seq_diff (sq isn x) (sq isn y) = x - y.
Proof. intros H. unfold sq. rewrite seq_diff_order by lia. lia. Qed.
Lemma sq_eqz isn x y : Z.abs (x - y) < 2147483648 -> (sq isn x =? sq isn y) = (x =? y).
Proof. intros H. unfold sq, u32. lia. Qed.

(** Inserting the next bytes. *)
Lemma ring_insert isn P cap q d l data : 0 < cap < 536870912 -> ring isn P cap q d l -> seg_bytes P (d + zlen l) data -> data <> [] ->
  exists q' r, queue_insert q data (sq isn (d + zlen l)) = Some (q', r) /\
    ((zlen data <= cap - zlen l /\ r = 0 /\ ring isn P cap q' d (l ++ data)) \/
     (cap - zlen l < zlen data /\ r = -1 /\ ring isn P cap q' d l)).
Proof.
  intros HC (HQ & HS & HB & HP & HL) HD NE. pose proof (zlen_nonneg l) as N1.
  destruct (queue_insert_spec q l data (sq isn (d + zlen l)) HQ) as (q' & r & E & H). exists q', r. split; [exact E|].
  unfold ins_abs in H. rewrite HS in H. replace (cap + 1 - 1 - zlen l) with (cap - zlen l) in H by lia.
  assert (PP : forall l', l' = l ++ data -> forall i b, nth_error l' i = Some b -> P (d + Z.of_nat i) b).
  { intros l' -> i b EN. destruct (Nat.lt_ge_cases i (length l)) as [L|L].
    - rewrite nth_error_app1 in EN by exact L. apply HP. exact EN.
    - rewrite nth_error_app2 in EN by exact L. apply HD in EN. replace (d + zlen l + Z.of_nat (i - length l)) with (d + Z.of_nat i) in EN by (unfold zlen; lia). exact EN. }
  destruct (cap - zlen l <? zlen data) eqn:E1.
  { right. destruct H as (-> & HQ' & HB' & HS'). split; [lia|]. split; [reflexivity|]. split; [exact HQ'|]. split; [congruence|]. split; [intros X; rewrite HB'; auto|]. auto. }
  left. split; [lia|]. assert (ZL : zlen (l ++ data) <= cap) by (rewrite zlen_app; lia).
  destruct (zlen l =? 0) eqn:E2.
  - destruct H as (-> & HQ' & HB' & HS'). split; [reflexivity|]. assert (l = []) as -> by (apply zlen_zero; lia). cbn [app] in *.
    split; [exact HQ'|]. split; [congruence|]. split; [intros _; rewrite HB'; change (zlen (@nil Z)) with 0; f_equal; lia|]. split; [apply PP; reflexivity|exact ZL].
  - assert (LNE : l <> []) by (intros ->; discriminate E2). cbv zeta in H. rewrite (HB LNE), sq_diffz in H by lia.
    replace (d + zlen l - d) with (zlen l) in H by lia. destruct (zlen l <? 0) eqn:E3; [lia|]. rewrite Z.ltb_irrefl in H.
    destruct H as (-> & HQ' & HB' & HS'). split; [reflexivity|]. split; [exact HQ'|]. split; [congruence|]. split; [intros _; rewrite HB'; auto|]. split; [apply PP; reflexivity|exact ZL].
Qed.

Lemma seg_bytes_of_slot P x data n bs : mread data 0 n = Some bs ->
  (forall i, 0 <= i < n -> exists b, nth_error data (Z.to_nat i) = Some b /\ P (x + i) b) -> seg_bytes P x bs.
Proof.
  intros R H i b EN. rewrite (mread_nth _ _ _ _ i R) in EN. destruct (Z.of_nat i <? n) eqn:E; [|discriminate].
  destruct (H (Z.of_nat i) ltac:(lia)) as (b' & E' & HP). rewrite Nat2Z.id in E'. cbn [Z.to_nat Nat.add] in EN. assert (b = b') by congruence. subst. exact HP.
Qed.

(** Progress measure of the promotion loop. *)
Fixpoint nused (l : list slot) : nat := match l with [] => O | s :: r => ((if o_used s then 1 else 0) + nused r)%nat end.
Fixpoint nbelow (ack : Z) (l : list slot) : nat :=
  match l with [] => O | s :: r => ((if o_used s && tcp_seq_lt (o_seq s) ack then 1 else 0) + nbelow ack r)%nat end.
Lemma nbelow_le ack l : (nbelow ack l <= nused l)%nat.
Proof. induction l as [|s l IH]; cbn; [lia|]. destruct (o_used s), (tcp_seq_lt (o_seq s) ack); cbn; lia. Qed.
Lemma nused_le l : (nused l <= length l)%nat.
Proof. induction l as [|s l IH]; cbn; [lia|]. destruct (o_used s); cbn; lia. Qed.

Lemma slot_dead isn P lo hi s sq' : zlen (o_data s) = 1460 -> slot_inv isn P lo hi (mkSlot false sq' 0 (o_data s)).
Proof. intros H. split; [exact H|]. cbn. discriminate. Qed.

(** Offset [y] is cached in some slot. *)
Definition slot_holds (isn lo : Z) (s : slot) (y : Z) : Prop :=
  o_used s = true /\ exists x, o_seq s = sq isn x /\ lo <= x <= y /\ y < x + o_len s /\ x < lo + 536870912.
Definition holds (isn lo : Z) (sl : list slot) (y : Z) : Prop := exists s, In s sl /\ slot_holds isn lo s y.

Lemma holds_cons isn lo s sl y : holds isn lo (s :: sl) y <-> slot_holds isn lo s y \/ holds isn lo sl y.
Proof. split.
  - intros (s' & [<- |I] & H); [left; exact H|right; exists s'; auto].
  - intros [H|(s' & I & H)]; [exists s; split; [left; reflexivity|exact H]|exists s'; split; [right; exact I|exact H]].
Qed.
Lemma slot_holds_at isn lo s y x : o_used s = true -> o_seq s = sq isn x -> lo <= x < lo + 536870912 -> slot_holds isn lo s y -> x <= y < x + o_len s.
Proof. intros U E H (_ & x' & E' & X1 & X2 & X3). rewrite E in E'. apply Z.eqb_eq in E'. rewrite sq_eqz in E' by lia. lia. Qed.
Lemma consume_scan_ok isn P cap d lo q l : 0 < cap < 536870912 -> ring isn P cap q d l -> d <= lo ->
  forall sl, Forall (slot_inv isn P lo (d + cap)) sl ->
  match consume_scan q (sq isn (d + zlen l)) sl with
  | None => False
  | Some None => Forall (slot_inv isn P (d + zlen l) (d + cap)) sl
  | Some (Some (q', a', sl')) => exists l', ring isn P cap q' d l' /\ a' = sq isn (d + zlen l') /\ (exists k, l' = l ++ k) /\
      Forall (slot_inv isn P lo (d + cap)) sl' /\ length sl' = length sl /\ (forall y, d + zlen l' <= y -> holds isn lo sl y -> holds isn lo sl' y) /\ 
      ((nused sl' < nused sl)%nat \/ (nused sl' = nused sl /\ l' = l /\ (nbelow a' sl' < nbelow a' sl)%nat))
  end.
Proof.
  intros HC HR HLO. pose proof HR as (HQ & HS & HB & HP & HL). pose proof (zlen_nonneg l) as NL.
  induction sl as [|s sl IH]; intros HF; cbn [consume_scan]; [constructor|].
  inversion HF as [|? ? (Hd & Hu) HF']; subst. specialize (IH HF').
  set (ack := sq isn (d + zlen l)) in *.
  assert (NEXT : (o_used s = false \/ exists x, o_seq s = sq isn x /\ d + zlen l <= x /\ slot_inv isn P (d + zlen l) (d + cap) s) ->
    match (do r <- consume_scan q ack sl; Some (match r with Some (q', a', l'') => Some (q', a', s :: l'') | None => None end)) with
    | None => False
    | Some None => Forall (slot_inv isn P (d + zlen l) (d + cap)) (s :: sl)
    | Some (Some (q', a', sl')) => exists l', ring isn P cap q' d l' /\ a' = sq isn (d + zlen l') /\ (exists k, l' = l ++ k) /\
      Forall (slot_inv isn P lo (d + cap)) sl' /\ length sl' = length (s :: sl) /\ (forall y, d + zlen l' <= y -> holds isn lo (s :: sl) y -> holds isn lo sl' y) /\ 
      ((nused sl' < nused (s :: sl))%nat \/ (nused sl' = nused (s :: sl) /\ l' = l /\ (nbelow a' sl' < nbelow a' (s :: sl))%nat))
    end).
  { intros HH. destruct (consume_scan q ack sl) as [[[[q' a'] sl']|]|]; cbn [obind]; [|constructor; [|exact IH]|exact IH].
    - destruct IH as (l' & I1 & I2 & I3 & I4 & I5 & I5' & I6). exists l'. split; [exact I1|]. split; [exact I2|]. split; [exact I3|]. split; [constructor; [split; assumption|exact I4]|].
      split; [cbn; lia|]. split; [intros y Y; rewrite !holds_cons; intros [H|H]; [left; exact H|right; apply I5'; assumption]|]. cbn [nused nbelow]. destruct I6 as [I6|(I6 & I7 & I8)]; [left; lia|right; repeat split; [lia|exact I7|lia]].
    - destruct HH as [HH|(x & _ & _ & HH)]; [|exact HH]. split; [exact Hd|]. rewrite HH. discriminate. }
  destruct (o_used s) eqn:EU; cbn [negb]; [|apply NEXT; auto].
  destruct (Hu eq_refl) as (x & ES & ELN & EX & EB).
  assert (NR : Z.abs (x - (d + zlen l)) < 1073741824) by lia.
  rewrite ES. unfold ack at 1. rewrite sq_ltb by lia. destruct (x <? d + zlen l) eqn:E1.
  - rewrite sq_inc by lia. unfold ack at 1. rewrite sq_leqb by lia. destruct (x + o_len s <=? d + zlen l) eqn:E2.
    + exists l. split; [exact HR|]. split; [reflexivity|]. split; [exists []; rewrite app_nil_r; reflexivity|]. split; [constructor; [apply slot_dead; exact Hd|exact HF']|]. split; [reflexivity|].
      split; [intros y Y; rewrite !holds_cons; intros [H|H]; [apply (slot_holds_at _ _ _ _ x EU ES) in H; lia|right; exact H]|].
      left. cbn [nused o_used]. rewrite EU. lia.
    + assert (DF : tcp_seq_diff ack (sq isn x) = d + zlen l - x) by (unfold ack; apply sq_diffz; lia). rewrite DF.
      assert (U1 : u32 (d + zlen l - x) = d + zlen l - x) by (unfold u32; apply Z.mod_small; lia). rewrite U1.
      assert (U2 : u32 (o_len s - (d + zlen l - x)) = o_len s - (d + zlen l - x)) by (unfold u32; apply Z.mod_small; lia). rewrite U2.
      destruct (mread_in (o_data s) (d + zlen l - x) (o_len s - (d + zlen l - x))) as (tl & ET); [lia..|]. rewrite ET. cbn [obind].
      pose proof (mread_some _ _ _ _ ET) as (_ & _ & _ & LT).
      destruct (mwrite_in (o_data s) 0 tl) as (buf & EW); [lia|lia|]. rewrite EW. cbn [obind]. pose proof (mwrite_some _ _ _ _ EW) as (_ & _ & LW).
      exists l. split; [exact HR|]. split; [reflexivity|]. split; [exists []; rewrite app_nil_r; reflexivity|]. split.
      { constructor; [|exact HF']. split; [cbn; lia|]. intros _. cbn [o_seq o_len o_data]. exists (d + zlen l). split; [reflexivity|]. split; [lia|]. split; [lia|].
        intros i Hi. rewrite (mwrite_nth _ _ _ _ _ EW). destruct ((Z.of_nat (Z.to_nat i) <? 0) || (0 + zlen tl <=? Z.of_nat (Z.to_nat i))) eqn:Q; [lia|].
        rewrite (mread_nth _ _ _ _ _ ET). destruct (Z.of_nat (Z.to_nat i - Z.to_nat 0) <? o_len s - (d + zlen l - x)) eqn:Q2; [|lia].
        destruct (EB (d + zlen l - x + i) ltac:(lia)) as (b & B1 & B2). exists b. split; [|replace (d + zlen l + i) with (x + (d + zlen l - x + i)) by lia; exact B2].
        rewrite <- B1. f_equal. lia. }
      split; [reflexivity|].
      split; [intros y Y; rewrite !holds_cons; intros [H|H]; [left; apply (slot_holds_at _ _ _ _ x EU ES) in H; [|lia]; split; [reflexivity|]; exists (d + zlen l); split; [reflexivity|]; cbn [o_len]; lia|right; exact H]|].
      right. cbn [nused nbelow o_used o_seq]. rewrite EU. split; [reflexivity|]. split; [reflexivity|].
      rewrite ES. cbn [andb]. fold ack. assert (Q1 : tcp_seq_lt ack ack = false) by (unfold tcp_seq_lt; rewrite Z.eqb_refl; reflexivity). rewrite Q1.
      unfold ack. rewrite sq_ltb by lia. rewrite E1. lia.
  - unfold ack at 1. rewrite sq_eqz by lia. destruct (Z.eqb_spec x (d + zlen l)) as [-> |NE].
    + destruct (mread_in (o_data s) 0 (o_len s)) as (bs & ER); [lia..|]. rewrite ER. cbn [obind]. pose proof (mread_some _ _ _ _ ER) as (_ & _ & _ & LB).
      destruct (ring_insert isn P cap q d l bs HC HR) as (q' & r & EI & HI).
      { eapply seg_bytes_of_slot; [exact ER|exact EB]. } { intros ->. change (zlen (@nil Z)) with 0 in LB. lia. }
      rewrite EI. cbn [obind]. destruct HI as [(I1 & -> & I2)|(I1 & -> & I2)].
      * change (0 =? 0) with true. cbv iota. exists (l ++ bs). split; [exact I2|]. unfold ack. rewrite sq_inc by lia. rewrite zlen_app, LB. split; [f_equal; lia|]. split; [exists bs; reflexivity|].
        split; [constructor; [apply slot_dead; exact Hd|exact HF']|]. split; [reflexivity|].
        split; [intros y Y; rewrite !holds_cons; intros [H|H]; [apply (slot_holds_at _ _ _ _ _ EU ES) in H; [lia|lia]|right; exact H]|].
        left. cbn [nused o_used]. rewrite EU. lia.
      * change (-1 =? 0) with false. cbv iota. apply NEXT. right. exists (d + zlen l). split; [exact ES|]. split; [lia|]. split; [exact Hd|]. intros _. exists (d + zlen l). repeat split; auto; lia.
    + apply NEXT. right. exists x. split; [exact ES|]. split; [lia|]. split; [exact Hd|]. intros _. exists x. repeat split; auto; lia.
Qed.

Lemma consume_loop_ok isn P cap d lo : 0 < cap < 536870912 -> d <= lo ->
  forall fuel q l sl, ring isn P cap q d l -> Forall (slot_inv isn P lo (d + cap)) sl -> length sl = 4%nat ->
  (5 * nused sl + nbelow (sq isn (d + zlen l)) sl < fuel)%nat ->
  exists q' sl' l', consume_loop fuel q (sq isn (d + zlen l)) sl = Some (q', sq isn (d + zlen l'), sl') /\
    ring isn P cap q' d l' /\ (exists k, l' = l ++ k) /\ Forall (slot_inv isn P (d + zlen l') (d + cap)) sl' /\ length sl' = 4%nat /\
    (forall y, d + zlen l' <= y -> holds isn lo sl y -> holds isn lo sl' y).
Proof.
  intros HC HLO. induction fuel as [|fuel IH]; intros q l sl HR HF HL HM; [lia|]. cbn [consume_loop].
  pose proof (consume_scan_ok isn P cap d lo q l HC HR HLO sl HF) as HS.
  destruct (consume_scan q (sq isn (d + zlen l)) sl) as [[[[q' a'] sl']|]|]; cbn [obind]; [| |contradiction].
  - destruct HS as (l' & S1 & -> & (k1 & S3) & S4 & S5 & S5' & S6).
    destruct (IH q' l' sl' S1 S4 ltac:(lia)) as (q2 & sl2 & l2 & E & R2 & (k2 & Z2) & F2 & L2 & K2).
    { pose proof (nbelow_le (sq isn (d + zlen l')) sl') as B1. pose proof (nused_le sl') as B2. pose proof (nused_le sl) as B3. pose proof (nbelow_le (sq isn (d + zlen l)) sl) as B4.
      destruct S6 as [S6|(S6 & -> & S7)]; lia. }
    exists q2, sl2, l2. split; [exact E|]. split; [exact R2|]. split; [exists (k1 ++ k2); rewrite Z2, S3, app_assoc; reflexivity|]. split; [exact F2|]. split; [exact L2|].
    intros y Y H. apply K2; [exact Y|]. apply S5'; [|exact H]. rewrite Z2, zlen_app in Y. pose proof (zlen_nonneg k2). lia.
  - exists q, sl, l. split; [reflexivity|]. split; [exact HR|]. split; [exists []; rewrite app_nil_r; reflexivity|]. split; [exact HS|]. split; [exact HL|]. auto.
Qed.

(** ** SACK blocks describe exactly the cached bytes. *)
Definition sack_blocks (isn n lo : Z) (sl : list slot) (sk bs : list (Z * Z)) : Prop :=
  sk = map (sqb isn) bs /\ (length bs <= 4)%nat /\ apart bs /\ Forall (fun b => n <= fst b /\ snd b < n + 1073741824) bs /\
  (forall y, covers bs y <-> holds isn lo sl y).
Definition sack_inv (isn n lo : Z) (sl : list slot) (sk : list (Z * Z)) : Prop := exists bs, sack_blocks isn n lo sl sk bs.

Lemma ooo_blocks_offs isn P lo hi : hi - lo < 536870912 -> forall sl, Forall (slot_inv isn P lo hi) sl ->
  exists offs, ooo_blocks sl = map (sqb isn) offs /\ Forall (fun b => lo <= fst b < snd b /\ snd b < lo + 1073741824) offs /\ (length offs <= length sl)%nat /\
    (forall y, covers offs y <-> holds isn lo sl y).
Proof.
  intros HW. induction sl as [|s sl IH]; intros HF.
  - exists []. split; [reflexivity|]. split; [constructor|]. split; [cbn; lia|]. intros y. split; intros (b & [] & _).
  - inversion HF as [|? ? (Hd & Hu) HF']; subst. destruct (IH HF') as (offs & E1 & E2 & E3 & E4). cbn [ooo_blocks].
    destruct (o_used s) eqn:EU; cbn [negb orb].
    + destruct (Hu eq_refl) as (x & ES & ELN & EX & EB). destruct (Z.eqb_spec (o_len s) 0) as [Z0|Z0]; [lia|].
      exists ((x, x + o_len s) :: offs). split; [cbn [map]; rewrite E1, ES, sq_inc by lia; reflexivity|]. split; [constructor; [cbn; lia|exact E2]|]. split; [cbn; lia|].
      intros y. split.
      * intros (b & [<- |I] & Y).
        -- cbn in Y. exists s. split; [left; reflexivity|]. split; [exact EU|]. exists x. repeat split; auto; lia.
        -- destruct (proj1 (E4 y)) as (s' & I' & H'); [exists b; auto|]. exists s'. split; [right; exact I'|exact H'].
      * intros (s' & [<- |I] & H').
        -- destruct H' as (_ & x' & ES' & X1 & X2 & X3). exists (x, x + o_len s). split; [left; reflexivity|]. cbn.
           assert (x' = x). { rewrite ES in ES'. apply Z.eqb_eq in ES'. rewrite sq_eqz in ES' by lia. lia. } lia.
        -- destruct (proj2 (E4 y)) as (b & I' & Y); [exists s'; auto|]. exists b. split; [right; exact I'|exact Y].
    + exists offs. split; [exact E1|]. split; [exact E2|]. split; [cbn; lia|]. intros y. rewrite E4. split.
      * intros (s' & I & H'). exists s'. split; [right; exact I|exact H'].
      * intros (s' & [<- |I] & H'); [destruct H' as (X & _); congruence|]. exists s'. auto.
Qed.

Lemma separated_in l : separated l -> Forall (fun b => fst b < snd b) l.
Proof. induction l as [|b r IH]; intros H; [constructor|]. destruct H as (A & B & C). constructor; auto. Qed.
Lemma rebuild_ok isn P n hi sl trig len : hi - n < 536870912 -> length sl = 4%nat -> Forall (slot_inv isn P n hi) sl ->
  (len <> 0 -> exists x, trig = sq isn x /\ n <= x < n + 1073741824) ->
  exists bs, sack_blocks isn n n sl (rebuild_sack sl trig len) bs /\
  (forall x, len <> 0 -> trig = sq isn x -> n <= x < n + 1073741824 -> holds isn n sl x ->
     exists b rest, bs = b :: rest /\ fst b <= x < snd b).
Proof.
  intros HW HL HF HT. destruct (ooo_blocks_offs isn P n hi HW sl HF) as (offs & E1 & E2 & E3 & E4).
  assert (NB : Forall (nearb n) offs) by (eapply Forall_impl; [|exact E2]; intros b [A B]; split; unfold near; lia).
  assert (LT : Forall (fun b => fst b < snd b) offs) by (eapply Forall_impl; [|exact E2]; cbn; intros b [A B]; lia).
  destruct (merge_blocks_spec offs LT) as (M1 & M2 & M3). set (m := merge_blocks Z.ltb Z.leb offs) in *.
  unfold rebuild_sack. rewrite E1, (merge_blocks_sq isn n offs NB). fold m.
  rewrite <- map_rev, firstn_map, firstn_all2 by (rewrite rev_length; lia).
  assert (RNG : Forall (fun b => n <= fst b /\ snd b < n + 1073741824) m).
  { apply Forall_forall. intros b I. pose proof (separated_in m M1) as SI. rewrite Forall_forall in SI. specialize (SI b I).
    rewrite Forall_forall in E2.
    destruct (proj1 (M2 (fst b))) as (c & Ic & Yc); [exists b; split; [exact I|lia]|].
    destruct (proj1 (M2 (snd b - 1))) as (c' & Ic' & Yc'); [exists b; split; [exact I|lia]|].
    pose proof (E2 c Ic). pose proof (E2 c' Ic'). lia. }
  assert (BASE : forall bs, Permutation m bs -> sack_blocks isn n n sl (map (sqb isn) bs) bs).
  { intros bs PB. split; [reflexivity|]. pose proof (Permutation_length PB). split; [lia|]. split; [eapply apart_perm; [exact PB|apply separated_apart; exact M1]|].
    split; [eapply Permutation_Forall; eassumption|]. intros y. rewrite <- E4, <- M2. split; apply covers_perm; [symmetry; exact PB|exact PB]. }
  destruct (Z.eqb_spec len 0) as [-> |NZ].
  { exists (rev m). split; [apply BASE; apply Permutation_rev|]. intros x H. contradiction. }
  destruct (HT NZ) as (x & -> & HX).
  assert (HIT : Forall (fun b => (fun b => tcp_seq_leq (fst b) (sq isn x) && tcp_seq_lt (sq isn x) (snd b)) (sqb isn b) = ((fst b <=? x) && (x <? snd b))) (rev m)).
  { apply Forall_forall. intros b I. apply in_rev in I. pose proof (separated_in m M1) as SI. rewrite Forall_forall in SI, RNG. specialize (SI b I). specialize (RNG b I). cbn [sqb fst snd].
    rewrite sq_leqb, sq_ltb by lia. reflexivity. }
  rewrite (take_first_map (sqb isn) _ (fun b => (fst b <=? x) && (x <? snd b)) (rev m) HIT).
  destruct (take_first (fun b => (fst b <=? x) && (x <? snd b)) (rev m)) as [[b r]|] eqn:TF.
  - apply take_first_perm in TF. destruct TF as [PB HB]. exists (b :: r). split.
    + change (sqb isn b :: map (sqb isn) r) with (map (sqb isn) (b :: r)). apply BASE. etransitivity; [apply Permutation_rev|exact PB].
    + intros x' _ EX HX' _. assert (x' = x). { symmetry in EX. apply Z.eqb_eq in EX. rewrite sq_eqz in EX by lia. lia. } subst x'.
      exists b, r. split; [reflexivity|lia].
  - exists (rev m). split; [apply BASE; apply Permutation_rev|]. intros x' _ EX HX' HH. exfalso.
    assert (x' = x). { symmetry in EX. apply Z.eqb_eq in EX. rewrite sq_eqz in EX by lia. lia. } subst x'.
    apply take_first_none in TF. rewrite Forall_forall in TF.
    destruct (proj2 (M2 x)) as (b & Ib & Yb); [apply E4; exact HH|]. specialize (TF b (proj1 (in_rev m b) Ib)). cbv beta in TF. lia.
Qed.
