(** C36: EAP-TLS fragmentation is lossless. *)
From Verif Require Import Base ListUtil Bits HttpUrl EapTls ForwardProofs ForwardProps.
Local Ltac Zify.zify_post_hook ::= idtac.

(** ** Specification (RFC 5216 section 3) *)
(** A packet: flags, 4 length bytes if L, TLS bytes. *)
Definition p_flags (d : list Z) : Z := zget d 0.
Definition has_L (d : list Z) : Prop := Z.testbit (p_flags d) 7 = true.
Definition has_M (d : list Z) : Prop := Z.testbit (p_flags d) 6 = true.
Definition has_S (d : list Z) : Prop := Z.testbit (p_flags d) 5 = true.
Definition p_total (d : list Z) : Z := 16777216 * zget d 1 + 65536 * zget d 2 + 256 * zget d 3 + zget d 4.
Definition payload (d : list Z) : list Z := if Z.testbit (p_flags d) 7 then skipn 5 d else skipn 1 d.

(** What an endpoint still has to read, and still has to send. *)
Definition unread (s : io) : list Z := skipn (Z.to_nat (rx_drained s)) (rx_buf s).
Definition unsent (s : io) : list Z := skipn (Z.to_nat (tx_drained s)) (tx_buf s).
(** Bytes of the message being received so far, and its declared length (0: none). *)
Definition got (s : io) : Z := if rx_complete s then 0 else zlen (rx_buf s).
Definition declared (s : io) : Z := if rx_complete s then 0 else rx_total s.
(** The reader's view when the next packet arrives: a complete message that was not
    read to its end is dropped. *)
Definition kept (s : io) : list Z := if rx_complete s then [] else unread s.

Definition eop_ok (o : eop) : Prop := match o with ERx d | ESend d => Forall byte d | ERecv _ | ETx _ => True end.
Definition reach (s : io) : Prop := exists os rs, Forall eop_ok os /\ erun io_reset os = Some (s, rs).

(** [s] hands out the packets [ps] (of any sizes), the last one without M; anything
    may be received meanwhile. *)
Inductive sends : io -> list (list Z) -> io -> Prop :=
| sends_last s mtu p s' : tx_fragment s mtu = Some (s', Some (p, false)) -> sends s [p] s'
| sends_more s mtu p s1 s2 ps s' : tx_fragment s mtu = Some (s1, Some (p, true)) ->
    tx_buf s2 = tx_buf s1 -> tx_drained s2 = tx_drained s1 -> tx_first s2 = tx_first s1 ->
    sends s2 ps s' -> sends s (p :: ps) s'.
Definition packets (h : list eop) : list (list Z) := flat_map (fun o => match o with ERx d => [d] | _ => [] end) h.
Definition read_bytes (rs : list eres) : list Z := flat_map (fun r => match r with RRecv (Some b) => b | _ => [] end) rs.

(** ** Invariant *)
Definition RInv (s : io) : Prop :=
  zlen (rx_buf s) <= 2048 /\ 0 <= rx_drained s <= zlen (rx_buf s) /\ 0 <= rx_total s <= 2048 /\
  (rx_total s <> 0 -> zlen (rx_buf s) <= rx_total s) /\ Forall byte (rx_buf s).
Definition TInv (s : io) : Prop :=
  zlen (tx_buf s) <= 2048 /\ 0 <= tx_drained s /\ Forall byte (tx_buf s) /\
  (if tx_first s then tx_drained s = 0 else 0 < tx_drained s < zlen (tx_buf s)).
Definition EInv (s : io) : Prop := RInv s /\ TInv s.

Lemma flag_testbit f k : 0 <= k -> flag f (2 ^ k) = Z.testbit f k.
Proof.
  intros K. unfold flag. destruct (Z.testbit f k) eqn:E.
  - destruct (Z.eqb_spec (Z.land f (2 ^ k)) 0) as [Q|Q]; [|reflexivity]. exfalso.
    assert (H : Z.testbit (Z.land f (2 ^ k)) k = true) by (rewrite Z.land_spec, E, Z.pow2_bits_true by lia; reflexivity). rewrite Q, Z.bits_0 in H. discriminate.
  - replace (Z.land f (2 ^ k)) with 0; [reflexivity|]. symmetry. apply Z.bits_inj'. intros n Hn. rewrite Z.land_spec, Z.bits_0.
    destruct (Z.eqb_spec k n) as [<- |D]; [rewrite E; reflexivity|]. rewrite Z.pow2_bits_false by congruence. apply andb_false_r.
Qed.
Lemma flag7 f : flag f 128 = Z.testbit f 7. Proof. apply (flag_testbit f 7). lia. Qed.
Lemma flag6 f : flag f 64 = Z.testbit f 6. Proof. apply (flag_testbit f 6). lia. Qed.
Lemma flag5 f : flag f 32 = Z.testbit f 5. Proof. apply (flag_testbit f 5). lia. Qed.

Lemma mread_tail (d : list Z) o n : 0 <= o -> n = zlen d - o -> 0 <= n -> mread d o n = Some (skipn (Z.to_nat o) d).
Proof.
  intros HO -> HN. unfold mread. replace ((0 <=? o) && (0 <=? zlen d - o) && (o + (zlen d - o) <=? zlen d)) with true by lia.
  f_equal. apply firstn_all2. unfold zlen in *. rewrite skipn_length. lia.
Qed.
Lemma rd32_spec d : 5 <= zlen d -> rd32_be d 1 = Some (p_total d).
Proof. intros L. unfold rd32_be. rewrite !rd1_in by lia. reflexivity. Qed.
Lemma total_range d : Forall byte d -> 0 <= p_total d.
Proof. intros H. unfold p_total. pose proof (zget_byte d 1 H). pose proof (zget_byte d 2 H). pose proof (zget_byte d 3 H). pose proof (zget_byte d 4 H). unfold byte in *. lia. Qed.

(** The conditions under which a packet is taken. *)
Definition takes (s : io) (d : list Z) : Prop :=
  1 <= zlen d /\ ~ has_S d /\
  (has_L d -> 5 <= zlen d /\ (declared s = 0 -> got s <= p_total d <= 2048)) /\
  got s + zlen (payload d) <= 2048 /\
  (forall t, t = (if (declared s =? 0) && Z.testbit (p_flags d) 7 then p_total d else declared s) -> t <> 0 ->
     payload d <> [] -> got s + zlen (payload d) <= t).

Lemma rx_spec s d : RInv s -> Forall byte d -> exists s' rc, rx_fragment s d = Some (s', rc) /\ RInv s' /\
  tx_buf s' = tx_buf s /\ tx_drained s' = tx_drained s /\ tx_first s' = tx_first s /\
  ((rc = 0 /\ takes s d /\ unread s' = kept s ++ payload d /\ rx_buf s' = (if rx_complete s then [] else rx_buf s) ++ payload d /\
      (rx_complete s' = true <-> ~ has_M d) /\
      (rx_complete s' = false -> rx_total s' = (if (declared s =? 0) && Z.testbit (p_flags d) 7 then p_total d else declared s))) \/
   (rc = 1 /\ 1 <= zlen d /\ has_S d /\ unread s' = kept s) \/
   (rc = -1 /\ ~ takes s d /\ ~ (1 <= zlen d /\ has_S d) /\ unread s' = (if zlen d =? 0 then unread s else kept s))).
Proof.
  intros (R1 & R2 & R3 & R4 & R5) HB. unfold rx_fragment. destruct (Z.ltb_spec (zlen d) 1) as [L1|L1].
  { exists s, (-1). split; [reflexivity|]. split; [unfold RInv; auto|]. split; [reflexivity|]. split; [reflexivity|]. split; [reflexivity|]. right. right.
    split; [reflexivity|]. split; [unfold takes; lia|]. split; [lia|]. pose proof (zlen_nonneg d). replace (zlen d =? 0) with true by lia. reflexivity. }
  rewrite rd1_in by lia. cbn [obind]. fold (p_flags d).
  set (s1 := if rx_complete s then _ else s).
  assert (S1 : RInv s1 /\ tx_buf s1 = tx_buf s /\ tx_drained s1 = tx_drained s /\ tx_first s1 = tx_first s /\ unread s1 = kept s /\ zlen (rx_buf s1) = got s /\
               rx_total s1 = declared s /\ rx_complete s1 = false /\ rx_buf s1 = (if rx_complete s then [] else rx_buf s)).
  { unfold s1, kept, got, declared. destruct (rx_complete s) eqn:Q; cbn.
    - split; [unfold RInv; cbn; repeat split; try lia; constructor|]. auto 10.
    - split; [unfold RInv; auto|]. auto 10. }
  clearbody s1. destruct S1 as ((A1 & A2 & A3 & A4 & A5) & T1 & T2 & T3 & UN & GO & DE & CO & RB).
  rewrite flag5, flag6, flag7. destruct (Z.testbit (p_flags d) 5) eqn:QS.
  { exists s1, 1. split; [reflexivity|]. split; [unfold RInv; auto|]. split; [exact T1|]. split; [exact T2|]. split; [exact T3|]. right. left. auto. }
  set (t := if (declared s =? 0) && Z.testbit (p_flags d) 7 then p_total d else declared s).
  pose proof (total_range d HB) as TR.
  assert (FAIL : forall s2, RInv s2 -> tx_buf s2 = tx_buf s -> tx_drained s2 = tx_drained s -> tx_first s2 = tx_first s -> unread s2 = kept s -> ~ takes s d ->
     exists s' rc, Some (s2, -1) = Some (s', rc) /\ RInv s' /\ tx_buf s' = tx_buf s /\ tx_drained s' = tx_drained s /\ tx_first s' = tx_first s /\
     ((rc = 0 /\ takes s d /\ unread s' = kept s ++ payload d /\ rx_buf s' = (if rx_complete s then [] else rx_buf s) ++ payload d /\
        (rx_complete s' = true <-> ~ has_M d) /\ (rx_complete s' = false -> rx_total s' = t)) \/
      (rc = 1 /\ 1 <= zlen d /\ has_S d /\ unread s' = kept s) \/
      (rc = -1 /\ ~ takes s d /\ ~ (1 <= zlen d /\ has_S d) /\ unread s' = (if zlen d =? 0 then unread s else kept s)))).
  { intros s2 I2 E1 E2 E3 E4 NT. exists s2, (-1). split; [reflexivity|]. split; [exact I2|]. split; [exact E1|]. split; [exact E2|]. split; [exact E3|]. right. right.
    split; [reflexivity|]. split; [exact NT|]. split; [unfold has_S; rewrite QS; intros [_ HX]; discriminate|]. replace (zlen d =? 0) with false by lia. exact E4. }
  (* the part after the length field *)
  assert (TAIL : forall s2 off, RInv s2 -> tx_buf s2 = tx_buf s -> tx_drained s2 = tx_drained s -> tx_first s2 = tx_first s -> unread s2 = kept s -> zlen (rx_buf s2) = got s ->
     rx_total s2 = t -> rx_complete s2 = false -> rx_buf s2 = (if rx_complete s then [] else rx_buf s) -> (off = 1 \/ off = 5) -> off <= zlen d -> payload d = skipn (Z.to_nat off) d ->
     (has_L d -> 5 <= zlen d /\ (declared s = 0 -> got s <= p_total d <= 2048)) ->
     exists s' rc, (if (0 <? zlen d - off) && ((frag_size <? zlen (rx_buf s2) + (zlen d - off)) || (negb (rx_total s2 =? 0) && (rx_total s2 <? zlen (rx_buf s2) + (zlen d - off))))
        then Some (s2, -1) else
        do src <- mread d off (zlen d - off); do buf <- buf_append (rx_buf s2) src;
        Some (mkIo buf (if negb (Z.testbit (p_flags d) 6) && (rx_total s2 =? 0) then zlen buf else rx_total s2) (rx_drained s2)
                (if negb (Z.testbit (p_flags d) 6) then true else rx_complete s2) (tx_buf s2) (tx_drained s2) (tx_first s2), 0)) = Some (s', rc) /\
     RInv s' /\ tx_buf s' = tx_buf s /\ tx_drained s' = tx_drained s /\ tx_first s' = tx_first s /\
     ((rc = 0 /\ takes s d /\ unread s' = kept s ++ payload d /\ rx_buf s' = (if rx_complete s then [] else rx_buf s) ++ payload d /\
        (rx_complete s' = true <-> ~ has_M d) /\ (rx_complete s' = false -> rx_total s' = t)) \/
      (rc = 1 /\ 1 <= zlen d /\ has_S d /\ unread s' = kept s) \/
      (rc = -1 /\ ~ takes s d /\ ~ (1 <= zlen d /\ has_S d) /\ unread s' = (if zlen d =? 0 then unread s else kept s)))).
  { intros s2 off I2 E1 E2 E3 E4 E5 E6 E7 E8 HO HL HP HLL. assert (LP : zlen (payload d) = zlen d - off) by (rewrite HP; unfold zlen in *; rewrite skipn_length; lia).
    destruct I2 as (B1 & B2 & B3 & B4 & B5). unfold frag_size. rewrite E5, E6.
    destruct ((0 <? zlen d - off) && ((2048 <? got s + (zlen d - off)) || (negb (t =? 0) && (t <? got s + (zlen d - off))))) eqn:Q.
    { apply FAIL; auto. { unfold RInv. auto. } intros (_ & _ & _ & K1 & K2). specialize (K2 t eq_refl). rewrite LP in *.
      assert (payload d <> []) by (intros HX; rewrite HX in LP; change (zlen (@nil Z)) with 0 in LP; lia). lia. }
    rewrite (mread_tail d off) by lia. cbn [obind]. rewrite <- HP. unfold buf_append, frag_size. rewrite E5, LP.
    pose proof (zlen_nonneg (rx_buf s2)). replace (got s + (zlen d - off) <=? 2048) with true by lia. cbn [obind].
    set (s3 := mkIo _ _ _ _ _ _ _). exists s3, 0. split; [reflexivity|].
    assert (L3 : zlen (rx_buf s2 ++ payload d) = got s + (zlen d - off)) by (rewrite zlen_app; lia).
    split. { unfold RInv, s3; cbn [rx_buf rx_drained rx_total]. rewrite L3. split; [lia|]. split; [lia|].
      assert (BT : Forall byte (rx_buf s2 ++ payload d)) by (apply Forall_app; split; [exact B5|rewrite HP; apply Forall_skipn; exact HB]).
      destruct (negb (Z.testbit (p_flags d) 6) && (t =? 0)) eqn:Q2; [split; [lia|]; split; [lia|exact BT]|]. rewrite E6 in *. split; [lia|]. split; [|exact BT]. intros HT. specialize (B4 HT). lia. }
    split; [exact E1|]. split; [exact E2|]. split; [exact E3|]. left. split; [reflexivity|]. split.
    { unfold takes, has_S. rewrite QS. split; [lia|]. split; [discriminate|]. split; [exact HLL|]. rewrite LP. split; [lia|]. intros t' -> HT NP. fold t. fold t in HT.
      assert (0 < zlen d - off) by (destruct (payload d); [congruence|rewrite zlen_cons in LP; pose proof (zlen_nonneg l); lia]). lia. }
    split. { unfold unread, s3; cbn [rx_buf rx_drained]. rewrite skipn_app. unfold unread in E4. rewrite E4. f_equal.
      replace (Z.to_nat (rx_drained s2) - length (rx_buf s2))%nat with 0%nat by (unfold zlen in *; lia). reflexivity. }
    split; [cbn [s3 rx_buf]; rewrite E8; reflexivity|]. split.
    { cbn [s3 rx_complete]. unfold has_M. destruct (Z.testbit (p_flags d) 6); cbn [negb]; [rewrite E7; split; [discriminate|intros HX; congruence]|split; [intros _ HX; discriminate|reflexivity]]. }
    cbn [s3 rx_complete rx_total]. destruct (Z.testbit (p_flags d) 6); cbn [negb andb]; [reflexivity|discriminate]. }
  destruct (Z.testbit (p_flags d) 7) eqn:QL.
  2:{ cbn [obind]. apply TAIL; auto; try (unfold RInv; auto); try lia.
      - unfold t. rewrite andb_false_r. exact DE.
      - unfold payload. rewrite QL. reflexivity.
      - unfold has_L. rewrite QL. discriminate. }
  destruct (Z.ltb_spec (zlen d) 5) as [L5|L5].
  { cbn [obind]. apply FAIL; auto; [unfold RInv; auto|]. intros (_ & _ & K & _). destruct (K QL). lia. }
  rewrite rd32_spec by lia. cbn [obind]. rewrite DE. destruct (Z.eqb_spec (declared s) 0) as [D0|D0].
  - destruct ((frag_size <? p_total d) || (p_total d <? zlen (rx_buf s1))) eqn:Q; unfold frag_size in Q; cbn [obind].
    { apply FAIL; auto; [unfold RInv; auto|]. intros (_ & _ & K & _). destruct (K QL) as [_ K2]. specialize (K2 D0). lia. }
    assert (TE : p_total d = t) by (unfold t; rewrite D0; reflexivity).
    apply TAIL; cbn [rx_buf rx_total rx_drained rx_complete tx_buf tx_drained tx_first]; auto; try lia.
    + unfold RInv. cbn. repeat split; try lia; exact A5.
    + unfold payload. rewrite QL. reflexivity.
  - cbn [obind]. assert (TE : rx_total s1 = t) by (unfold t; destruct (Z.eqb_spec (declared s) 0); [lia|exact DE]). apply TAIL; auto; try (unfold RInv; auto); try lia.
    unfold payload. rewrite QL. reflexivity.
Qed.

Lemma wr32_total v l : 0 <= v < 4294967296 -> forall x, p_total (x :: wr32_be v ++ l) = v.
Proof.
  intros HV x. unfold p_total, wr32_be, zget. change (Z.to_nat 1) with 1%nat. change (Z.to_nat 2) with 2%nat. change (Z.to_nat 3) with 3%nat. change (Z.to_nat 4) with 4%nat. cbn [app nth]. unfold u8.
  replace (v / 65536) with (v / 256 / 256) by (rewrite Z.div_div by lia; reflexivity).
  replace (v / 16777216) with (v / 256 / 256 / 256) by (rewrite !Z.div_div by lia; reflexivity).
  assert (Q3 : v / 256 / 256 / 256 < 256) by (rewrite !Z.div_div by lia; apply Z.div_lt_upper_bound; lia).
  assert (0 <= v / 256 / 256 / 256) by (repeat apply Z.div_pos; lia).
  rewrite (Z.mod_small (v / 256 / 256 / 256)) by lia.
  pose proof (Z.div_mod v 256 ltac:(lia)) as E1. pose proof (Z.div_mod (v / 256) 256 ltac:(lia)) as E2. pose proof (Z.div_mod (v / 256 / 256) 256 ltac:(lia)) as E3. lia.
Qed.

Lemma skipn_split {A} (l : list A) a n : 0 <= a -> 0 <= n -> firstn (Z.to_nat n) (skipn (Z.to_nat a) l) ++ skipn (Z.to_nat (a + n)) l = skipn (Z.to_nat a) l.
Proof. intros HA HN. replace (Z.to_nat (a + n)) with (Z.to_nat n + Z.to_nat a)%nat by lia. rewrite <- skipn_skipn. apply firstn_skipn. Qed.

Lemma reach_inv0 : EInv io_reset.
Proof. unfold EInv, RInv, TInv, io_reset; cbn. repeat split; try lia; constructor. Qed.

(** Handing out a packet. *)
Lemma tx_spec s mtu : TInv s -> exists s' r, tx_fragment s mtu = Some (s', r) /\ TInv s' /\
  rx_buf s' = rx_buf s /\ rx_total s' = rx_total s /\ rx_drained s' = rx_drained s /\ rx_complete s' = rx_complete s /\
  match r with
  | None => s' = s /\ (mtu < 1 \/ (mtu < 6 /\ mtu <= zlen (unsent s)))
  | Some (p, more) =>
      Forall byte p /\ 1 <= zlen p <= mtu /\ ~ has_S p /\ unsent s = payload p ++ unsent s' /\
      (has_M p <-> more = true) /\ (has_L p <-> tx_first s = true /\ more = true) /\
      (has_L p -> p_total p = zlen (unsent s)) /\ tx_first s' = negb more /\
      (more = true -> payload p <> [] /\ unsent s' <> []) /\ (more = false -> unsent s' = [] /\ tx_buf s' = [])
  end.
Proof.
  intros (T1 & T2 & T3 & T4). unfold tx_fragment.
  assert (TD : tx_drained s <= zlen (tx_buf s)) by (pose proof (zlen_nonneg (tx_buf s)); destruct (tx_first s); lia).
  assert (UL : zlen (unsent s) = zlen (tx_buf s) - tx_drained s) by (unfold unsent, zlen in *; rewrite skipn_length; lia).
  assert (FAIL : mtu < 1 \/ (mtu < 6 /\ mtu <= zlen (unsent s)) -> exists s' r, Some (s, @None (list Z * bool)) = Some (s', r) /\ TInv s' /\
    rx_buf s' = rx_buf s /\ rx_total s' = rx_total s /\ rx_drained s' = rx_drained s /\ rx_complete s' = rx_complete s /\
    match r with None => s' = s /\ (mtu < 1 \/ (mtu < 6 /\ mtu <= zlen (unsent s))) | Some (p, more) =>
      Forall byte p /\ 1 <= zlen p <= mtu /\ ~ has_S p /\ unsent s = payload p ++ unsent s' /\
      (has_M p <-> more = true) /\ (has_L p <-> tx_first s = true /\ more = true) /\
      (has_L p -> p_total p = zlen (unsent s)) /\ tx_first s' = negb more /\
      (more = true -> payload p <> [] /\ unsent s' <> []) /\ (more = false -> unsent s' = [] /\ tx_buf s' = []) end).
  { intros H. exists s, None. split; [reflexivity|]. split; [unfold TInv; auto|]. auto 10. }
  destruct (Z.ltb_spec mtu 1); [apply FAIL; lia|]. destruct (Z.ltb_spec (zlen (tx_buf s)) (tx_drained s)); [lia|]. cbv zeta.
  rewrite <- UL. set (R := zlen (unsent s)) in *. set (off := if tx_first s && (mtu <? R + 1) then 5 else 1).
  assert (OO : (off = 5 /\ tx_first s = true /\ mtu < R + 1) \/ (off = 1 /\ ~ (tx_first s = true /\ mtu < R + 1))) by (unfold off; destruct (tx_first s); destruct (Z.ltb_spec mtu (R + 1)); cbn; lia).
  clearbody off. assert (RN : 0 <= R) by (unfold R; apply zlen_nonneg).
  destruct (Z.ltb_spec mtu off); [apply FAIL; lia|]. set (take := if R <? mtu - off then R else mtu - off).
  assert (TK : (take = R /\ R <= mtu - off) \/ (take = mtu - off /\ take < R)) by (unfold take; destruct (Z.ltb_spec R (mtu - off)); lia). clearbody take.
  destruct ((take =? 0) && (take <? R)) eqn:Q0; [apply FAIL; lia|].
  rewrite mread_part by lia. cbn [obind]. unfold ForwardSpec.part.
  set (src := firstn (Z.to_nat take) (skipn (Z.to_nat (tx_drained s)) (tx_buf s))).
  assert (LS : zlen src = take) by (unfold src, zlen in *; rewrite firstn_length, skipn_length; lia).
  assert (SP : unsent s = src ++ skipn (Z.to_nat (tx_drained s + take)) (tx_buf s)) by (unfold src, unsent; rewrite skipn_split by lia; reflexivity).
  assert (BS : Forall byte src) by (apply Forall_firstn, Forall_skipn; exact T3).
  destruct (Z.ltb_spec take R) as [MO|MO].
  - (* more fragments follow *)
    rewrite !andb_true_r in *. destruct (tx_first s) eqn:QF; cbn [andb].
    + assert (off = 5) by lia. subst off.
      eexists _, _. split; [reflexivity|]. split.
      { unfold TInv. cbn [tx_buf tx_drained tx_first]. split; [exact T1|]. split; [lia|]. split; [exact T3|]. lia. }
      split; [reflexivity|]. split; [reflexivity|]. split; [reflexivity|]. split; [reflexivity|].
      assert (PF : p_flags ((128 + 64 :: wr32_be R) ++ src) = 192) by reflexivity.
      assert (PP : payload ((128 + 64 :: wr32_be R) ++ src) = src) by reflexivity.
      assert (PL : zlen ((128 + 64 :: wr32_be R) ++ src) = 5 + take) by (rewrite zlen_app, zlen_cons; change (zlen (wr32_be R)) with 4; lia).
      unfold has_S, has_M, has_L. rewrite PF, PP, PL. cbn [tx_first tx_buf tx_drained unsent negb].
      split. { apply Forall_app; split; [|exact BS]. constructor; [unfold byte; lia|]. unfold wr32_be, u8. repeat constructor; unfold byte; apply Z.mod_pos_bound; lia. }
      split; [lia|]. split; [discriminate|]. split; [exact SP|]. split; [split; reflexivity|]. split; [split; auto|].
      split; [intros _; cbn [app]; apply wr32_total; unfold R, zlen in *; lia|]. split; [reflexivity|]. split.
      * intros _. split; [intros HX; rewrite HX in LS; change (zlen (@nil Z)) with 0 in LS; lia|]. unfold unsent. cbn [tx_buf tx_drained]. intros HX.
        apply (f_equal (@length Z)) in HX. rewrite skipn_length in HX. cbn in HX. unfold zlen in *. lia.
      * discriminate.
    + assert (off = 1) by lia. subst off.
      eexists _, _. split; [reflexivity|]. split.
      { unfold TInv. cbn [tx_buf tx_drained tx_first]. split; [exact T1|]. split; [lia|]. split; [exact T3|]. lia. }
      split; [reflexivity|]. split; [reflexivity|]. split; [reflexivity|]. split; [reflexivity|].
      change (Z.to_nat (1 - 1)) with 0%nat. cbn [repeat app]. set (q := 0 + 64 :: src).
      assert (PF : p_flags q = 64) by reflexivity. assert (PP : payload q = src) by reflexivity.
      assert (PL : zlen q = 1 + take) by (unfold q; rewrite zlen_cons; lia).
      assert (BQ : Forall byte q) by (constructor; [unfold byte; lia|exact BS]).
      clearbody q. unfold has_S, has_M, has_L. rewrite PF, PP, PL. cbn [tx_first negb].
      split; [exact BQ|]. split; [lia|]. split; [discriminate|]. split; [exact SP|]. split; [split; reflexivity|]. split; [split; [discriminate|intros [HX _]; discriminate]|].
      split; [discriminate|]. split; [reflexivity|]. split.
      * intros _. split; [intros HX; rewrite HX in LS; change (zlen (@nil Z)) with 0 in LS; lia|]. unfold unsent. cbn [tx_buf tx_drained]. intros HX.
        apply (f_equal (@length Z)) in HX. rewrite skipn_length in HX. cbn in HX. unfold zlen in *. lia.
      * discriminate.
  - rewrite !andb_false_r in *. assert (off = 1) by lia. subst off.
    eexists _, _. split; [reflexivity|]. split.
    { unfold TInv. cbn [tx_buf tx_drained tx_first]. split; [cbn; lia|]. split; [lia|]. split; [constructor|reflexivity]. }
    split; [reflexivity|]. split; [reflexivity|]. split; [reflexivity|]. split; [reflexivity|].
    change (Z.to_nat (1 - 1)) with 0%nat. cbn [repeat app]. set (q := 0 + 0 :: src).
    assert (PF : p_flags q = 0) by reflexivity. assert (PP : payload q = src) by reflexivity.
    assert (PL : zlen q = 1 + take) by (unfold q; rewrite zlen_cons; lia).
    assert (BQ : Forall byte q) by (constructor; [unfold byte; lia|exact BS]).
    clearbody q. unfold has_S, has_M, has_L. rewrite PF, PP, PL. cbn [tx_first negb].
    split; [exact BQ|]. split; [lia|]. split; [discriminate|]. split.
    { rewrite SP. f_equal. cbn. apply skipn_all2. unfold zlen in *. lia. }
    split; [split; discriminate|]. split; [split; [discriminate|intros [_ HX]; discriminate]|]. split; [discriminate|]. split; [reflexivity|]. split; [discriminate|]. auto.
Qed.

Lemma recv_spec s sz : RInv s -> exists s' r, io_recv s sz = Some (s', r) /\ RInv s' /\
  tx_buf s' = tx_buf s /\ tx_drained s' = tx_drained s /\ tx_first s' = tx_first s /\
  match r with
  | None => s' = s /\ (sz <= 0 \/ unread s = [])
  | Some b => unread s = b ++ unread s' /\ b <> [] /\ zlen b <= sz /\
      (s' = mkIo (rx_buf s) (rx_total s) (rx_drained s + zlen b) (rx_complete s) (tx_buf s) (tx_drained s) (tx_first s) \/
       (rx_complete s = true /\ s' = mkIo [] 0 0 false (tx_buf s) (tx_drained s) (tx_first s)))
  end.
Proof.
  intros RI. pose proof RI as (R1 & R2 & R3 & R4 & R5). unfold io_recv. 
  assert (UL : zlen (unread s) = zlen (rx_buf s) - rx_drained s) by (unfold unread, zlen in *; rewrite skipn_length; lia).
  destruct (Z.leb_spec sz 0); [exists s, None; auto 10|]. destruct (Z.ltb_spec (zlen (rx_buf s)) (rx_drained s)); [lia|]. cbv zeta. rewrite <- UL.
  destruct (Z.eqb_spec (zlen (unread s)) 0) as [Q|Q]; [exists s, None; repeat (split; [auto|]); right; apply zlen_zero; exact Q|].
  set (take := if zlen (unread s) <? sz then zlen (unread s) else sz). pose proof (zlen_nonneg (unread s)).
  assert (TK : 0 < take <= zlen (unread s) /\ take <= sz) by (unfold take; destruct (Z.ltb_spec (zlen (unread s)) sz); lia). clearbody take.
  rewrite mread_part by lia. cbn [obind]. unfold ForwardSpec.part.
  set (b := firstn (Z.to_nat take) (skipn (Z.to_nat (rx_drained s)) (rx_buf s))).
  assert (LB : zlen b = take) by (unfold b, zlen in *; rewrite firstn_length, skipn_length; lia).
  assert (SP : unread s = b ++ skipn (Z.to_nat (rx_drained s + take)) (rx_buf s)) by (unfold b, unread; rewrite skipn_split by lia; reflexivity).
  destruct (rx_complete s && (rx_drained s + take =? zlen (rx_buf s))) eqn:QC.
  - eexists _, _. split; [reflexivity|]. split; [unfold RInv; cbn; repeat split; try lia; constructor|]. split; [reflexivity|]. split; [reflexivity|]. split; [reflexivity|].
    split. { rewrite SP. f_equal. unfold unread. cbn. apply skipn_all2. unfold zlen in *. lia. }
    split; [intros HX; rewrite HX in LB; change (zlen (@nil Z)) with 0 in LB; lia|]. split; [lia|]. right. split; [|reflexivity]. apply andb_true_iff in QC. tauto.
  - eexists _, _. split; [reflexivity|]. split; [unfold RInv; cbn [rx_buf rx_drained rx_total]; repeat split; try lia; assumption|]. split; [reflexivity|]. split; [reflexivity|]. split; [reflexivity|].
    split; [exact SP|]. split; [intros HX; rewrite HX in LB; change (zlen (@nil Z)) with 0 in LB; lia|]. split; [lia|]. left. rewrite LB. reflexivity.
Qed.
Lemma send_spec s b : TInv s -> Forall byte b -> exists s' n, io_send s b = Some (s', n) /\ TInv s' /\
  rx_buf s' = rx_buf s /\ rx_total s' = rx_total s /\ rx_drained s' = rx_drained s /\ rx_complete s' = rx_complete s /\
  tx_drained s' = tx_drained s /\ tx_first s' = tx_first s /\
  ((n = -1 /\ s' = s /\ (b = [] \/ zlen (tx_buf s) = 2048)) \/
   (1 <= n <= zlen b /\ unsent s' = unsent s ++ firstn (Z.to_nat n) b /\ (n < zlen b -> zlen (tx_buf s') = 2048))).
Proof.
  intros TI HB. pose proof TI as (T1 & T2 & T3 & T4). unfold io_send. pose proof (zlen_nonneg b). pose proof (zlen_nonneg (tx_buf s)).
  destruct (Z.leb_spec (zlen b) 0). { exists s, (-1). repeat (split; [auto|]). left. split; [reflexivity|]. split; [reflexivity|]. left. apply zlen_zero. lia. }
  unfold frag_size. destruct (Z.ltb_spec 2048 (zlen (tx_buf s))); [lia|]. cbv zeta.
  destruct (Z.eqb_spec (2048 - zlen (tx_buf s)) 0). { exists s, (-1). repeat (split; [auto|]). left. split; [reflexivity|]. split; [reflexivity|]. right. lia. }
  set (k := if 2048 - zlen (tx_buf s) <? zlen b then _ else _). assert (NN : 1 <= k <= zlen b /\ zlen (tx_buf s) + k <= 2048 /\ (k < zlen b -> zlen (tx_buf s) + k = 2048)).
  { unfold k. destruct (Z.ltb_spec (2048 - zlen (tx_buf s)) (zlen b)); lia. } clearbody k.
  rewrite mread_part by lia. cbn [obind]. unfold ForwardSpec.part. cbn [Z.to_nat skipn]. assert (LN : zlen (firstn (Z.to_nat k) b) = k) by (unfold zlen in *; rewrite firstn_length; lia).
  unfold buf_append, frag_size. rewrite LN. replace (zlen (tx_buf s) + k <=? 2048) with true by lia. cbn [obind].
  eexists _, k. split; [reflexivity|]. cbn [tx_buf tx_drained tx_first rx_buf rx_total rx_drained rx_complete].
  split. { unfold TInv. cbn [tx_buf tx_drained tx_first]. rewrite zlen_app, LN. split; [lia|]. split; [lia|]. split; [apply Forall_app; split; [exact T3|apply Forall_firstn; exact HB]|]. destruct (tx_first s); lia. }
  repeat (split; [reflexivity|]). right. split; [lia|]. split.
  - unfold unsent. cbn [tx_buf tx_drained]. rewrite skipn_app. f_equal. replace (Z.to_nat (tx_drained s) - length (tx_buf s))%nat with 0%nat; [reflexivity|]. unfold zlen in *. destruct (tx_first s); lia.
  - rewrite zlen_app, LN. lia.
Qed.

Lemma RInv_ext s s' : rx_buf s' = rx_buf s -> rx_total s' = rx_total s -> rx_drained s' = rx_drained s -> RInv s -> RInv s'.
Proof. unfold RInv. intros -> -> ->. auto. Qed.
Lemma TInv_ext s s' : tx_buf s' = tx_buf s -> tx_drained s' = tx_drained s -> tx_first s' = tx_first s -> TInv s -> TInv s'.
Proof. unfold TInv. intros -> -> ->. auto. Qed.
Lemma estep_inv s o : EInv s -> eop_ok o -> exists s' r, estep s o = Some (s', r) /\ EInv s'.
Proof.
  intros (RI & TI) HO. destruct o as [d|sz|b|mtu]; cbn [estep eop_ok] in *.
  - destruct (rx_spec s d RI HO) as (s' & rc & -> & I & A & B & C & _). cbn [obind]. eexists _, _. split; [reflexivity|]. split; [exact I|eapply TInv_ext; eassumption].
  - destruct (recv_spec s sz RI) as (s' & rc & -> & I & A & B & C & _). cbn [obind]. eexists _, _. split; [reflexivity|]. split; [exact I|eapply TInv_ext; eassumption].
  - destruct (send_spec s b TI HO) as (s' & rc & -> & I & A & B & C & _). cbn [obind]. eexists _, _. split; [reflexivity|]. split; [eapply RInv_ext; eassumption|exact I].
  - destruct (tx_spec s mtu TI) as (s' & rc & -> & I & A & B & C & _). cbn [obind]. eexists _, _. split; [reflexivity|]. split; [eapply RInv_ext; eassumption|exact I].
Qed.
Lemma erun_inv : forall os s, EInv s -> Forall eop_ok os -> exists s' rs, erun s os = Some (s', rs) /\ EInv s'.
Proof.
  induction os as [|o os IH]; intros s HI HO; [exists s, []; auto|]. inversion HO; subst. cbn [erun].
  destruct (estep_inv s o HI ltac:(assumption)) as (s1 & r & -> & I1). cbn [obind]. destruct (IH s1 I1 ltac:(assumption)) as (s2 & rs & -> & I2). cbn [obind]. eexists _, _. split; [reflexivity|exact I2].
Qed.
Lemma reach_inv s : reach s -> EInv s.
Proof. intros (os & rs & HO & E). destruct (erun_inv os io_reset reach_inv0 HO) as (s' & rs' & E' & HI). rewrite E in E'. injection E' as -> _. exact HI. Qed.

(** ** Theorems *)
(** No sequence of packets, reads, writes and sends, with any contents and sizes,
    accesses memory outside the buffers. *)
Theorem eap_tls_total : forall os, Forall eop_ok os -> exists s rs, erun io_reset os = Some (s, rs).
Proof. intros os H. destruct (erun_inv os io_reset reach_inv0 H) as (s & rs & E & _). exists s, rs. exact E. Qed.
Print Assumptions eap_tls_total.

(** A received packet is taken exactly when it is not a Start packet, its length
    field is sound and it fits the declared length and the 2048-byte buffer; its TLS
    bytes are then appended to what the TLS library will read next, else nothing is. *)
Theorem eap_tls_rx_exact : forall s d, reach s -> Forall byte d -> 1 <= zlen d -> exists s' rc, rx_fragment s d = Some (s', rc) /\
  (rc = 0 <-> takes s d) /\ (rc = 1 <-> has_S d) /\ (rc = 0 \/ rc = 1 \/ rc = -1) /\
  unread s' = kept s ++ (if rc =? 0 then payload d else []) /\ (rc = 0 -> (rx_complete s' = true <-> ~ has_M d)).
Proof.
  intros s d HR HB HL. destruct (rx_spec s d (proj1 (reach_inv s HR)) HB) as (s' & rc & E & _ & _ & _ & _ & H). exists s', rc. split; [exact E|].
  replace (zlen d =? 0) with false in H by lia. destruct H as [(-> & TK & UN & _ & CO & _)|[(-> & _ & HS & UN)|(-> & NT & NS & UN)]]; cbn [Z.eqb].
  - split; [tauto|]. split; [split; [discriminate|intros HX; destruct TK as (_ & NS & _); contradiction]|]. auto.
  - split; [split; [discriminate|intros (_ & NS & _); contradiction]|]. split; [tauto|]. rewrite app_nil_r. split; [auto|]. split; [exact UN|discriminate].
  - split; [split; [discriminate|contradiction]|]. split; [split; [discriminate|intros HX; exfalso; auto]|]. rewrite app_nil_r. split; [auto|]. split; [exact UN|discriminate].
Qed.
Print Assumptions eap_tls_rx_exact.

(** The TLS library reads the received bytes in order, none lost, none twice. *)
Theorem eap_tls_read_in_order : forall s sz, reach s -> 0 < sz -> exists s' r, io_recv s sz = Some (s', r) /\
  match r with Some b => unread s = b ++ unread s' /\ 0 < zlen b <= sz | None => unread s = [] /\ s' = s end.
Proof.
  intros s sz HR HS. destruct (recv_spec s sz (proj1 (reach_inv s HR))) as (s' & r & E & _ & _ & _ & _ & H). exists s', r. split; [exact E|].
  destruct r as [b|]; [|destruct H as (-> & [HX|HX]); [lia|auto]]. destruct H as (H1 & H2 & H3 & _). split; [exact H1|]. split; [|exact H3].
  destruct b; [congruence|]. rewrite zlen_cons. pose proof (zlen_nonneg b). lia.
Qed.
Print Assumptions eap_tls_read_in_order.

(** With packets of at least 6 bytes the whole flight can be handed out, and every
    packet obeys its size limit and RFC 5216: L with the total length exactly on
    the first of several, M on all but the last. *)
Theorem eap_tls_tx_exact : forall s mtu, reach s -> exists s' r, tx_fragment s mtu = Some (s', r) /\
  match r with
  | None => s' = s /\ (mtu < 1 \/ (mtu < 6 /\ mtu <= zlen (unsent s)))
  | Some (p, more) => 1 <= zlen p <= mtu /\ ~ has_S p /\ unsent s = payload p ++ unsent s' /\ (has_M p <-> unsent s' <> []) /\
      (more = true <-> unsent s' <> []) /\ (has_L p <-> tx_first s = true /\ more = true) /\ (has_L p -> p_total p = zlen (unsent s)) /\
      (more = true -> payload p <> [])
  end.
Proof.
  intros s mtu HR. destruct (tx_spec s mtu (proj2 (reach_inv s HR))) as (s' & r & E & _ & _ & _ & _ & _ & H). exists s', r. split; [exact E|].
  destruct r as [[p more]|]; [|exact H]. destruct H as (_ & A & B & C & D & F & G & _ & I & J). split; [exact A|]. split; [exact B|]. split; [exact C|].
  assert (MU : more = true <-> unsent s' <> []).
  { split; [intros HX; exact (proj2 (I HX))|]. intros HX. destruct more; [reflexivity|]. destruct (J eq_refl). contradiction. }
  split; [rewrite D; exact MU|]. split; [exact MU|]. split; [exact F|]. split; [exact G|]. intros HX. exact (proj1 (I HX)).
Qed.
Print Assumptions eap_tls_tx_exact.

Lemma sends_exists_gen n : forall s mtu, (length (unsent s) <= n)%nat -> TInv s -> 6 <= mtu -> exists ps s', sends s ps s' /\ Forall (fun p => 1 <= zlen p <= mtu) ps.
Proof.
  induction n as [|n IH]; intros s mtu HL TI HM; destruct (tx_spec s mtu TI) as (s1 & r & E & I1 & _ & _ & _ & _ & H); (destruct r as [[p more]|]; [|destruct H; lia]).
  - destruct more; [|exists [p], s1; split; [econstructor; exact E|]; constructor; [tauto|constructor]].
    destruct H as (_ & _ & _ & C & _ & _ & _ & _ & I & _). destruct (I eq_refl) as [I2 I3]. rewrite C, app_length in HL. destruct (payload p); [congruence|cbn in HL; lia].
  - destruct more; [|exists [p], s1; split; [econstructor; exact E|]; constructor; [tauto|constructor]].
    destruct H as (_ & A & _ & C & _ & _ & _ & _ & I & _). destruct (I eq_refl) as [I2 I3]. rewrite C, app_length in HL.
    destruct (IH s1 mtu) as (ps & s' & SS & FF); [destruct (payload p); [congruence|cbn in HL; lia]|exact I1|exact HM|].
    exists (p :: ps), s'. split; [econstructor; [exact E|reflexivity|reflexivity|reflexivity|exact SS]|]. constructor; assumption.
Qed.
Theorem eap_tls_flight_sendable : forall s mtu, reach s -> 6 <= mtu -> exists ps s', sends s ps s' /\ Forall (fun p => 1 <= zlen p <= mtu) ps.
Proof. intros s mtu HR. apply (sends_exists_gen (length (unsent s))); [lia|apply reach_inv; exact HR]. Qed.
Print Assumptions eap_tls_flight_sendable.

(** Nothing is being received. *)
Definition fresh (r : io) : Prop := unread r = [] /\ (rx_complete r = true \/ (rx_buf r = [] /\ rx_total r = 0)).

Definition mid (r s : io) : Prop :=
  EInv r /\ TInv s /\
  if tx_first s then fresh r
  else rx_complete r = false /\ rx_total r = zlen (rx_buf r) + zlen (unsent s) /\ unsent s <> [].

Lemma no_packets_read : forall h r r' rs, EInv r -> Forall eop_ok h -> packets h = [] -> erun r h = Some (r', rs) ->
  unread r = read_bytes rs ++ unread r'.
Proof.
  induction h as [|o h IH]; intros r r' rs EI HO HP; cbn [erun]; [intros H; injection H as <- <-; reflexivity|]. inversion HO as [|? ? O1 O2]; subst.
  destruct (estep_inv r o EI O1) as (r1 & x & E & I1). rewrite E. cbn [obind]. destruct (erun r1 h) as [[r2 xs]|] eqn:E2; [|discriminate]. cbn [obind]. intros H; injection H as <- <-.
  assert (HP2 : packets h = []) by (destruct o; [discriminate HP|exact HP|exact HP|exact HP]). specialize (IH r1 r2 xs I1 O2 HP2 E2). destruct EI as [RI TI].
  destruct o as [d|sz|b|mtu]; [discriminate| | |]; cbn [estep] in E.
  - destruct (recv_spec r sz RI) as (r1' & y & EY & _ & _ & _ & _ & H). rewrite EY in E. cbn [obind] in E. injection E as -> <-. cbn [read_bytes flat_map].
    destruct y as [b|]; [|destruct H as [-> _]; exact IH]. destruct H as (H1 & _). rewrite H1, <- app_assoc. f_equal. exact IH.
  - destruct (send_spec r b TI O1) as (r1' & y & EY & _ & A1 & _ & A3 & _). rewrite EY in E. cbn [obind] in E. injection E as -> <-. transitivity (unread r1); [unfold unread; congruence|exact IH].
  - destruct (tx_spec r mtu TI) as (r1' & y & EY & _ & A1 & _ & A3 & _). rewrite EY in E. cbn [obind] in E. injection E as -> <-. transitivity (unread r1); [unfold unread; congruence|exact IH].
Qed.

Lemma no_packets_rx : forall h r r' rs, packets h = [] -> erun r h = Some (r', rs) -> forall x, ~ In (RRx x) rs.
Proof.
  induction h as [|o h IH]; intros r r' rs HP; cbn [erun]; [intros H; injection H as <- <-; auto|].
  destruct (estep r o) as [[r1 x]|] eqn:E; [|discriminate]. cbn [obind]. destruct (erun r1 h) as [[r2 xs]|] eqn:E2; [|discriminate]. cbn [obind]. intros H; injection H as <- <-.
  assert (HP2 : packets h = []) by (destruct o; [discriminate HP|exact HP|exact HP|exact HP]). intros y [HX|HX]; [|exact (IH _ _ _ HP2 E2 y HX)]. subst x.
  destruct o as [d|sz|b|mtu]; [discriminate| | |]; cbn [estep] in E.
  - destruct (io_recv r sz) as [[? ?]|]; discriminate.
  - destruct (io_send r b) as [[? ?]|]; discriminate.
  - destruct (tx_fragment r mtu) as [[? ?]|]; discriminate.
Qed.
Lemma zpos_ne (l : list Z) : l <> [] -> 0 < zlen l.
Proof. destruct l; [congruence|]. intros _. rewrite zlen_cons. pose proof (zlen_nonneg l). lia. Qed.

Lemma roundtrip_gen : forall h r s ps s' r' rs, mid r s -> sends s ps s' -> Forall eop_ok h -> packets h = ps -> erun r h = Some (r', rs) ->
  (forall x, In (RRx x) rs -> x = 0) /\ unread r ++ unsent s = read_bytes rs ++ unread r'.
Proof.
  induction h as [|o h IH]; intros r s ps s' r' rs MI SE HO HP; cbn [erun].
  { exfalso. cbn in HP. subst ps. inversion SE. }
  inversion HO as [|? ? O1 O2]; subst. pose proof MI as (EI & TI & MD). pose proof EI as [RI RT].
  destruct (estep_inv r o EI O1) as (r1 & x & E & I1). rewrite E. cbn [obind]. destruct (erun r1 h) as [[r2 xs]|] eqn:E2; [|discriminate]. cbn [obind]. intros H; injection H as <- <-.
  destruct o as [d|sz|b|mtu]; cbn [estep] in E.
  - (* a packet arrives: the next one sent *)
    cbn [packets flat_map] in SE. fold (packets h) in SE. cbn [app] in SE.
    assert (TXF : exists mtu s1 more, tx_fragment s mtu = Some (s1, Some (d, more)) /\
              ((more = false /\ packets h = []) \/ (more = true /\ exists s2, tx_buf s2 = tx_buf s1 /\ tx_drained s2 = tx_drained s1 /\ tx_first s2 = tx_first s1 /\ sends s2 (packets h) s'))).
    { inversion SE as [? mtu ? ? F1|? mtu ? s1 s2 ? ? F1 F2 F3 F4 F5]; subst; eauto 12. }
    destruct TXF as (mtu & s1 & more & F1 & F2). destruct (tx_spec s mtu TI) as (s1' & y & EY & TI1 & _ & _ & _ & _ & SP). rewrite F1 in EY. injection EY as <- <-.
    destruct SP as (P1 & P2 & P3 & P4 & P5 & P6 & P7 & P8 & P9 & P10).
    destruct (rx_spec r d RI P1) as (r1' & rc & EX & _ & _ & _ & _ & RX). rewrite EX in E. cbn [obind] in E. injection E as -> <-.
    assert (LU : zlen (unsent s) = zlen (payload d) + zlen (unsent s1)) by (rewrite P4, zlen_app; reflexivity).
    assert (US : zlen (unsent s) <= 2048 - tx_drained s). { destruct TI as (T1 & T2 & _ & T4). unfold unsent, zlen in *. rewrite skipn_length. destruct (tx_first s); lia. }
    assert (TD0 : 0 <= tx_drained s) by (destruct TI; tauto). pose proof (zlen_nonneg (payload d)). pose proof (zlen_nonneg (unsent s1)).
    assert (GD : (tx_first s = true /\ got r = 0 /\ declared r = 0) \/ (tx_first s = false /\ got r = zlen (rx_buf r) /\ declared r = zlen (rx_buf r) + zlen (unsent s) /\ rx_complete r = false /\ unsent s <> [])).
    { destruct (tx_first s) eqn:QF; [left|right].
      - destruct MD as (_ & [MD|[M1 M2]]); unfold got, declared; [rewrite MD; auto|]. rewrite M1, M2. destruct (rx_complete r); auto.
      - destruct MD as (M1 & M2 & M3). unfold got, declared. rewrite M1. auto 10. }
    assert (KU : kept r = unread r). { unfold kept. destruct (rx_complete r) eqn:Q; [|reflexivity]. destruct GD as [(GF & _)|(_ & _ & _ & G & _)]; [|congruence]. rewrite GF in MD. symmetry. apply MD. }
    set (T := if (declared r =? 0) && Z.testbit (p_flags d) 7 then p_total d else declared r) in *.
    assert (TT : T = 0 \/ T = got r + zlen (unsent s)).
    { unfold T. destruct GD as [(G1 & G2 & G3)|(G1 & G2 & G3 & G4 & G5)].
      - rewrite G3, G2. cbn [Z.eqb andb]. destruct (Z.testbit (p_flags d) 7) eqn:Q7; [right; rewrite (P7 Q7); lia|left; reflexivity].
      - right. assert (0 < zlen (unsent s)) by (destruct (unsent s); [congruence|rewrite zlen_cons; pose proof (zlen_nonneg l); lia]). pose proof (zlen_nonneg (rx_buf r)).
        destruct (Z.eqb_spec (declared r) 0); [lia|]. cbn [andb]. lia. }
    assert (GB : got r + zlen (unsent s) <= 2048).
    { destruct GD as [(G1 & G2 & G3)|(G1 & G2 & G3 & G4 & G5)]; [lia|]. destruct RI as (_ & _ & R3 & _). rewrite G1 in MD. destruct MD as (_ & M2 & _). lia. }
    assert (G0 : 0 <= got r) by (unfold got; pose proof (zlen_nonneg (rx_buf r)); destruct (rx_complete r); lia).
    assert (TK : takes r d).
    { unfold takes. fold T. split; [lia|]. split; [exact P3|]. split; [|split; [lia|]].
      - intros HL. pose proof (P7 HL) as PT. split; [|intros _; destruct (P6) as [P6a _]; destruct (P6a HL) as [HF _]; destruct GD as [(G1 & G2 & G3)|(G1 & _)]; [lia|congruence]].
        apply P6 in HL as HL'. destruct HL' as [_ HM]. destruct (P9 HM) as [HN _]. unfold payload in HN. unfold has_L in HL. rewrite HL in HN.
        assert (NE : (5 < length d)%nat). { destruct (Nat.le_gt_cases (length d) 5) as [Q|Q]; [exfalso; apply HN; apply skipn_all2; exact Q|exact Q]. } unfold zlen. lia.
      - intros t -> HT _. destruct TT as [TT|TT]; [contradiction|]. rewrite TT. lia. }
    destruct RX as [(-> & _ & UN & RBX & CO & TO)|[(_ & _ & HSX & _)|(_ & NT & _)]]; [|contradiction|contradiction].
    cbn [read_bytes flat_map app]. rewrite KU in UN.
    destruct F2 as [[-> HP]|[-> (s2 & X1 & X2 & X3 & SE2)]].
    + (* the last one *)
      pose proof (no_packets_read h r1 r2 xs I1 O2 HP E2) as NR. destruct (P10 eq_refl) as [P11 _]. rewrite P11, app_nil_r in P4. rewrite P4, <- UN. split; [|exact NR].
      intros x [HX|HX]; [injection HX as <-; reflexivity|]. exfalso. exact (no_packets_rx h r1 r2 xs HP E2 x HX).
    + destruct (P9 eq_refl) as [P11 P12].
      assert (CF : rx_complete r1 = false). { destruct (rx_complete r1) eqn:Q; [|reflexivity]. exfalso. apply (proj1 CO eq_refl). apply P5. reflexivity. }
      assert (LB : zlen (rx_buf r1) = got r + zlen (payload d)). { rewrite RBX, zlen_app. unfold got. destruct (rx_complete r); reflexivity. }
      assert (TE : rx_total r1 = zlen (rx_buf r1) + zlen (unsent s1)).
      { rewrite (TO CF). fold T. destruct TT as [TT|TT]; [|lia]. exfalso. unfold T in TT. destruct GD as [(G1 & G2 & G3)|(G1 & G2 & G3 & G4 & G5)].
        - assert (HL : has_L d) by (apply P6; auto). pose proof (P7 HL) as PT. unfold has_L in HL. rewrite G3, HL in TT. cbn [Z.eqb andb] in TT. pose proof (zpos_ne (payload d) P11). lia.
        - pose proof (zpos_ne (unsent s) G5). pose proof (zlen_nonneg (rx_buf r)). destruct (Z.eqb_spec (declared r) 0); [lia|]. cbn [andb] in TT. lia. }
      assert (U2 : unsent s2 = unsent s1) by (unfold unsent; rewrite X1, X2; reflexivity).
      destruct (IH r1 s2 (packets h) s' r2 xs) as [J1 J2]; [|exact SE2|exact O2|reflexivity|exact E2|].
      { split; [exact I1|]. split; [eapply TInv_ext; [exact X1|exact X2|exact X3|exact TI1]|]. rewrite X3, P8. cbn [negb]. rewrite U2. auto. }
      split; [intros x [HX|HX]; [injection HX as <-; reflexivity|auto]|]. transitivity (unread r1 ++ unsent s2); [rewrite U2, P4, UN, <- app_assoc; reflexivity|exact J2].
  - (* a read *)
    destruct (recv_spec r sz RI) as (r1' & y & EY & I2 & A1 & A2 & A3 & H). rewrite EY in E. cbn [obind] in E. injection E as -> <-.
    cbn [packets flat_map app] in SE. fold (packets h) in SE. destruct y as [b|].
    + destruct H as (H1 & H2 & H3 & H4). assert (MI1 : mid r1 s).
      { split; [exact I1|]. split; [exact TI|]. destruct (tx_first s); [destruct MD as [MD1 MD2]; rewrite MD1 in H1; destruct b; [contradiction|discriminate]|].
        destruct MD as (M1 & M2 & M3). destruct H4 as [-> |[HX _]]; [|congruence]. cbn. auto. }
      destruct (IH r1 s (packets h) s' r2 xs MI1 SE O2 eq_refl E2) as [J1 J2]. split; [intros x [HX|HX]; [discriminate|auto]|].
      cbn [read_bytes flat_map]. rewrite H1, <- !app_assoc. f_equal. exact J2.
    + destruct H as [-> _]. destruct (IH r s (packets h) s' r2 xs MI SE O2 eq_refl E2) as [J1 J2]. split; [intros x [HX|HX]; [discriminate|auto]|exact J2].
  - destruct (send_spec r b RT O1) as (r1' & y & EY & _ & A1 & A2 & A3 & A4 & _). rewrite EY in E. cbn [obind] in E. injection E as -> <-.
    destruct (IH r1 s (packets h) s' r2 xs) as [J1 J2]; [|exact SE|exact O2|reflexivity|exact E2|].
    + split; [exact I1|]. split; [exact TI|]. unfold fresh, unread in *. rewrite A1, A2, A3, A4. exact MD.
    + split; [intros x [HX|HX]; [discriminate|auto]|]. transitivity (unread r1 ++ unsent s); [unfold unread; rewrite A1, A3; reflexivity|exact J2].
  - destruct (tx_spec r mtu RT) as (r1' & y & EY & _ & A1 & A2 & A3 & A4 & _). rewrite EY in E. cbn [obind] in E. injection E as -> <-.
    destruct (IH r1 s (packets h) s' r2 xs) as [J1 J2]; [|exact SE|exact O2|reflexivity|exact E2|].
    + split; [exact I1|]. split; [exact TI|]. unfold fresh, unread in *. rewrite A1, A2, A3, A4. exact MD.
    + split; [intros x [HX|HX]; [discriminate|auto]|]. transitivity (unread r1 ++ unsent s); [unfold unread; rewrite A1, A3; reflexivity|exact J2].
Qed.

(** Whatever bytes were queued for a flight, however they are cut into packets, and
    whenever the receiver reads in between (in whatever portions) and sends itself:
    if the packets arrive in order every one of them is accepted, and what the
    receiver has read followed by what it can still read is exactly the flight. *)
Theorem eap_tls_roundtrip : forall s ps s' r h r' rs,
  reach s -> tx_first s = true -> sends s ps s' ->
  reach r -> fresh r -> Forall eop_ok h -> packets h = ps -> erun r h = Some (r', rs) ->
  (forall x, In (RRx x) rs -> x = 0) /\ tx_buf s = read_bytes rs ++ unread r'.
Proof.
  intros s ps s' r h r' rs HS HF SE HR FR HO HP E. pose proof (reach_inv s HS) as [_ TI]. pose proof TI as (_ & _ & _ & T4). rewrite HF in T4.
  destruct (roundtrip_gen h r s ps s' r' rs) as [J1 J2]; [|exact SE|exact HO|exact HP|exact E|].
  - split; [apply reach_inv; exact HR|]. split; [exact TI|]. rewrite HF. exact FR.
  - split; [exact J1|]. destruct FR as [FR _]. rewrite FR in J2. unfold unsent in J2. rewrite T4 in J2. exact J2.
Qed.
Print Assumptions eap_tls_roundtrip.

(** Non-vacuity: a flight of 12 bytes cut into packets of 9, 6 and 8 bytes, read in
    portions while it arrives. *)
Definition fl : list Z := [1;2;3;4;5;6;7;8;9;10;11;12].
Definition ex_s : io := mkIo [] 0 0 false fl 0 true.
Definition ex_ps : list (list Z) := [[192;0;0;0;12;1;2;3;4]; [64;5;6;7;8;9]; [0;10;11;12]].
Definition ex_h : list eop := [ERx [192;0;0;0;12;1;2;3;4]; ERecv 3; ERx [64;5;6;7;8;9]; ESend [7;7]; ERecv 2; ERx [0;10;11;12]; ETx 100; ERecv 100].
Example eap_tls_roundtrip_nonvacuous :
  reach ex_s /\ sends ex_s ex_ps (mkIo [] 0 0 false [] 0 true) /\ reach io_reset /\ fresh io_reset /\ Forall eop_ok ex_h /\ packets ex_h = ex_ps /\
  erun io_reset ex_h = Some (io_reset, [RRx 0; RRecv (Some [1;2;3]); RRx 0; RSend 2; RRecv (Some [4;5]); RRx 0; RTx (Some ([0;7;7], false)); RRecv (Some [6;7;8;9;10;11;12])]).
Proof.
  split. { exists [ESend [1;2;3;4;5]; ESend [6;7;8;9;10;11;12]], [RSend 5; RSend 7]. split; [|vm_compute; reflexivity]. constructor; [apply allbytes_ok; reflexivity|]. constructor; [apply allbytes_ok; reflexivity|constructor]. }
  split. { eapply sends_more with (mtu := 9); [vm_compute; reflexivity|reflexivity|reflexivity|reflexivity|]. eapply sends_more with (mtu := 6); [vm_compute; reflexivity|reflexivity|reflexivity|reflexivity|].
           eapply sends_last with (mtu := 8). vm_compute. reflexivity. }
  split. { exists [], []. split; [constructor|reflexivity]. }
  split. { split; [reflexivity|]. right. split; reflexivity. }
  split. { repeat (constructor; [first [apply allbytes_ok; reflexivity|exact I]|]). constructor. }
  split; [reflexivity|]. vm_compute. reflexivity.
Qed.

(** ** What does not hold *)
(** A message shorter than its declared length is complete as soon as a fragment
    without M arrives. *)
Theorem eap_tls_declared_length_enforced_refuted :
  ~ (forall d s' , Forall byte d -> has_L d -> rx_fragment io_reset d = Some (s', 0) -> rx_complete s' = true -> zlen (unread s') = p_total d).
Proof.
  intros H. specialize (H [128;0;0;0;100;1;2;3] (mkIo [1;2;3] 100 0 true [] 0 true)). 
  assert (Q : zlen [1;2;3] = 100); [|discriminate]. apply H; [apply allbytes_ok; reflexivity|reflexivity|vm_compute; reflexivity|reflexivity].
Qed.
Print Assumptions eap_tls_declared_length_enforced_refuted.
(** A rejected fragment leaves its declared length behind, so a valid message that
    follows it is rejected too. *)
Theorem eap_tls_reject_is_harmless_refuted :
  ~ (forall s1 d d', Forall byte d -> Forall byte d' -> rx_fragment io_reset d = Some (s1, -1) ->
      (exists s2, rx_fragment io_reset d' = Some (s2, 0)) -> exists s3, rx_fragment s1 d' = Some (s3, 0)).
Proof.
  intros H. destruct (H (mkIo [] 2 0 false [] 0 true) [128;0;0;0;2;1;2;3] [0;1;2;3]) as [s3 HX];
    [apply allbytes_ok; reflexivity|apply allbytes_ok; reflexivity|vm_compute; reflexivity|eexists; vm_compute; reflexivity|]. vm_compute in HX. discriminate.
Qed.
Print Assumptions eap_tls_reject_is_harmless_refuted.
(** A Start packet in the middle of a message does not restart reassembly: the bytes
    received before it stay in front of the new message. *)
Theorem eap_tls_start_restarts_refuted :
  ~ (forall s d s1 d' s2, reach s -> Forall byte d -> Forall byte d' -> rx_fragment s d = Some (s1, 1) -> rx_fragment s1 d' = Some (s2, 0) -> unread s2 = payload d').
Proof.
  intros H. assert (Q : [1;2;3] = [3]); [|discriminate].
  apply (H (mkIo [1;2] 0 0 false [] 0 true) [32] (mkIo [1;2] 0 0 false [] 0 true) [0;3] (mkIo [1;2;3] 3 0 true [] 0 true));
    [|apply allbytes_ok; reflexivity|apply allbytes_ok; reflexivity|vm_compute; reflexivity|vm_compute; reflexivity].
  exists [ERx [64;1;2]], [RRx 0]. split; [constructor; [apply allbytes_ok; reflexivity|constructor]|vm_compute; reflexivity].
Qed.
Print Assumptions eap_tls_start_restarts_refuted.
(** A packet delivered twice is appended twice. *)
Theorem eap_tls_duplicate_ignored_refuted :
  ~ (forall d s1 s2 rc, Forall byte d -> rx_fragment io_reset d = Some (s1, 0) -> rx_fragment s1 d = Some (s2, rc) -> unread s2 = unread s1).
Proof.
  intros H. assert (Q : [1;2;1;2] = [1;2]); [|discriminate].
  apply (H [64;1;2] (mkIo [1;2] 0 0 false [] 0 true) (mkIo [1;2;1;2] 0 0 false [] 0 true) 0); [apply allbytes_ok; reflexivity|vm_compute; reflexivity|vm_compute; reflexivity].
Qed.
Print Assumptions eap_tls_duplicate_ignored_refuted.
