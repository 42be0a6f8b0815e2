(** Raw and packet sockets: sendto. *)
From Verif Require Import Base ListUtil Checksum ChecksumProps Route RouteProps Arp HttpUrl Fifo Forward ForwardSpec ForwardProofs ForwardStep Udp UdpFifo UdpSpec UdpFrames UdpInv UdpOps Raw RawSpec RawInv.
(** ** The interface chosen *)
Lemma conf_at_cons c cs i : 0 < i -> conf_at (c :: cs) i = conf_at cs (i - 1).
Proof. intros H. unfold conf_at. replace (Z.to_nat i) with (S (Z.to_nat (i - 1))) by lia. reflexivity. Qed.
Lemma find_first (P : ipconf -> bool) (find : list ipconf -> Z -> option Z) :
  (forall i, find [] i = None) -> (forall c cs i, find (c :: cs) i = if P c then Some i else find cs (i + 1)) ->
  forall cs k, match find cs k with
  | Some i => k <= i < k + zlen cs /\ P (conf_at cs (i - k)) = true /\ forall j, 0 <= j < i - k -> P (conf_at cs j) = false
  | None => forall j, 0 <= j < zlen cs -> P (conf_at cs j) = false end.
Proof.
  intros F0 FS. induction cs as [|c cs IH]; intros k; [rewrite F0; cbn; intros; lia|]. rewrite FS, zlen_cons. pose proof (zlen_nonneg cs). destruct (P c) eqn:PC.
  - split; [lia|]. rewrite Z.sub_diag. split; [exact PC|]. intros; lia.
  - specialize (IH (k + 1)). destruct (find cs (k + 1)) as [i|].
    + destruct IH as (A & B & C). split; [lia|]. rewrite conf_at_cons by lia. replace (i - k - 1) with (i - (k + 1)) by lia. split; [exact B|].
      intros j J. destruct (Z.eq_dec j 0) as [->|]; [exact PC|]. rewrite conf_at_cons by lia. apply C. lia.
    + intros j J. destruct (Z.eq_dec j 0) as [->|]; [exact PC|]. rewrite conf_at_cons by lia. apply IH. lia.
Qed.
Lemma raw_route_routed w b d dont : routed w b d dont (raw_route w b d dont).
Proof.
  pose proof (find_first (fun c => c_ip c =? b) (fun cs i => find_if cs i b) (fun _ => eq_refl) (fun _ _ _ => eq_refl) (w_confs w) 0) as F1.
  pose proof (find_first (fun c => negb (c_ip c =? 0) && ip_is_local_conf c d) (fun cs i => conn_if cs i d) (fun _ => eq_refl) (fun _ _ _ => eq_refl) (w_confs w) 0) as F2.
  cbv beta in F1, F2. pose proof (zlen_confs w) as LC.
  assert (R2 : no_if w (fun c => b <> 0 /\ c_ip c = b) -> routed w b d dont (match (if dont then conn_if (w_confs w) 0 d else None) with Some i => i | None => route_for_ip w d end)).
  { intros N. unfold routed. cbv zeta. right. split; [exact N|]. destruct dont.
    - destruct (conn_if (w_confs w) 0 d) as [i|].
      + destruct F2 as (A & B & C). rewrite Z.sub_0_r in *. rewrite andb_true_iff in B. destruct B as (B1 & B2). left. split; [lia|]. split; [split; [reflexivity|]; split; [lia|exact B2]|].
        intros j J (_ & X & Y). specialize (C j J). rewrite Y in C. lia.
      + right. split; [|reflexivity]. intros j J (_ & X & Y). specialize (F2 j ltac:(lia)). rewrite Y in F2. lia.
    - right. split; [|reflexivity]. intros j J (X & _). discriminate. }
  unfold raw_route, if_for_local_ip. destruct (Z.eqb_spec b 0) as [B0|B0]; [apply R2; intros j J (X & _); contradiction|].
  destruct (Z.eqb_spec (zlen (w_confs w)) 0) as [L0|L0]; [apply R2; intros j J; lia|].
  destruct (find_if (w_confs w) 0 b) as [i|].
  - destruct F1 as (A & B & C). rewrite Z.sub_0_r in *. left. split; [lia|]. split; [split; [exact B0|lia]|]. intros j J (_ & X). specialize (C j J). lia.
  - apply R2. intros j J (_ & X). specialize (F1 j ltac:(lia)). lia.
Qed.

Lemma RI_tx t q l : RI t -> fq (r_used t) TXBUF q l -> Forall raw_tx_ok l -> RI (rset_q (r_rx t) q t).
Proof.
  intros (Q1 & Q2 & Q3 & Q4 & Q5) F A. destruct (fq_con _ _ _ _ F) as (F' & C).
  split; [exact Q1|]. split; [exact Q2|]. split; [exact F'|]. split; [cbn [r_tx rset_q]; rewrite C; exact A|exact Q5].
Qed.
Lemma PI_tx t q l : PI t -> fq (p_used t) TXBUF q l -> Forall pkt_tx_ok l -> PI (pset_q (p_rx t) q t).
Proof.
  intros (Q1 & Q2 & Q3 & Q4 & Q5) F A. destruct (fq_con _ _ _ _ F) as (F' & C).
  split; [exact Q1|]. split; [exact Q2|]. split; [exact F'|]. split; [cbn [p_tx pset_q]; rewrite C; exact A|exact Q5].
Qed.
Lemma RI_addr t l r i : RI t -> addr32 l -> addr32 r -> 0 <= i < 256 -> RI (rset_addr (r_bound t) l r i t).
Proof.
  intros (Q1 & Q2 & Q3 & Q4 & (Q5 & _)) A B C. split; [exact Q1|]. split; [exact Q2|]. split; [exact Q3|]. split; [exact Q4|]. split; [exact Q5|]. split; [exact A|]. split; [exact B|exact C].
Qed.
Lemma u8_range v : 0 <= u8 v < 256. Proof. unfold u8. apply Z.mod_pos_bound. lia. Qed.
Lemma raw_queue_spec t f n : RI t -> raw_tx_ok f -> exists q r, raw_queue t f n = Some (rset_q (r_rx t) q t, r) /\ RI (rset_q (r_rx t) q t) /\
  ((r = n /\ fifo_can_push_len (r_tx t) (zlen f) = true /\ enqueued (r_tx t) f q) \/ (r = -11 /\ q = r_tx t)).
Proof.
  intros H T. pose proof H as (Q1 & Q2 & Q3 & Q4 & Q5). unfold raw_queue.
  assert (ID : rset_q (r_rx t) (r_tx t) t = t) by (destruct t; reflexivity).
  destruct (fifo_space (r_tx t) <? zlen f). { exists (r_tx t), (-11). rewrite ID. split; [reflexivity|]. split; [assumption|]. right. auto. }
  pose proof T as (T1 & T2 & T3 & T4). destruct (fq_push _ _ _ _ f Q3) as (q & r & q' & EP & FQ & EN & RR & RC & CASES); [unfold DESC; lia|]. rewrite EP. cbn [obind].
  exists q, (if r <? 0 then -11 else n). split; [reflexivity|]. split.
  - eapply RI_tx; [assumption|exact FQ|]. destruct CASES as [(_ & _ & ->)|(_ & [-> | (_ & [-> | ->])])]; [assumption|apply Forall_app; auto|constructor|constructor; auto].
  - destruct RR as [-> | ->].
    + left. split; [reflexivity|]. split; [apply RC; reflexivity|exact EN].
    + right. split; [reflexivity|]. destruct CASES as [(_ & X & _)|(X & _)]; [exact X|lia].
Qed.
Lemma raw_local_addr w b o i : uworld_ok w -> addr32 b -> addr32 o -> addr32 (raw_local w b o i).
Proof.
  intros HW B O'. unfold raw_local. cbv zeta. destruct (negb (b =? 0)); [assumption|]. destruct (negb (conf_ip w i =? 0)); [apply conf_addr; assumption|].
  destruct (negb (conf_ip w _ =? 0)); [apply conf_addr; assumption|assumption].
Qed.
Lemma raw_local_source w t i : source_for w t i (raw_local w (r_bound t) (r_local t) i).
Proof.
  unfold raw_local, source_for. cbv zeta. destruct (negb (r_bound t =? 0)) eqn:B; [left; split; [lia|reflexivity]|]. right.
  destruct (negb (conf_ip w i =? 0)) eqn:C; [left; split; [lia|]; split; [lia|reflexivity]|]. right. split; [lia|]. split; [lia|].
  destruct (negb (conf_ip w (if w_lb w then 1 else 0) =? 0)); [right; reflexivity|left; reflexivity].
Qed.
Lemma header_spec2 l r proto_ id len : addr32 l -> addr32 r -> byte proto_ -> 0 <= len < 65516 ->
  exists ip, iphdr_set_checksum ([69; 0] ++ be16 (u16 (20 + len)) ++ be16 id ++ [0; 0; 64; proto_; 0; 0] ++ be32 l ++ be32 r) = Some ip /\
    zlen ip = 20 /\ ones_complement_valid ip /\ Forall byte ip /\ zget ip 0 = 69 /\ zget ip 1 = 0 /\ word ip 2 = 20 + len /\ word ip 6 = 0 /\ zget ip 8 = 64 /\ zget ip 9 = proto_ /\
    addr ip 12 = l /\ addr ip 16 = r.
Proof.
  intros HL HR BP H. pose proof (header_spec (set_peer r 0 (set_local l sock0)) proto_ id 64 len) as X. apply X; try assumption; [|unfold byte; lia].
  unfold ranges, addr32, port_ok, byte in *. cbn. lia.
Qed.
Lemma raw_route_d w b d dont : 0 <= u8 (raw_route w b d dont) < 256. Proof. apply u8_range. Qed.

Lemma send_raw_spec w id t to b junk : uworld_ok w -> RI t -> Forall byte b -> Forall byte junk -> (forall ip, to = Some ip -> addr32 ip) ->
  (r_hdr t = true -> header_fits b) ->
  exists t' id' r, send_raw w id t to b junk = Some (t', id', r) /\ RI t' /\ raw_sent w t to b t' r.
Proof.
  intros HW H HB HJ HT HF. unfold send_raw. cbv zeta. pose proof (zlen_nonneg b) as NB.
  set (t0 := match to with Some ip => rset_addr (r_bound t) (r_local t) ip (r_if t) t | None => t end).
  pose proof H as (Q1 & Q2 & Q3 & Q4 & (Q5 & Q6 & Q7 & Q8)).
  assert (H0 : RI t0) by (unfold t0; destruct to; [apply RI_addr; auto|assumption]).
  set (d := match to with Some ip => ip | None => r_remote t end).
  assert (Ed : r_remote t0 = d) by (unfold t0, d; destruct to; reflexivity).
  assert (SAME : r_used t0 = r_used t /\ r_proto t0 = r_proto t /\ r_hdr t0 = r_hdr t /\ r_dont t0 = r_dont t /\ r_in t0 = r_in t /\ r_bound t0 = r_bound t /\ r_rx t0 = r_rx t /\ r_ttl t0 = r_ttl t /\ r_tx t0 = r_tx t /\ r_local t0 = r_local t)
    by (unfold t0; destruct to; cbn; auto 20).
  destruct SAME as (S1 & S2 & S3 & S4 & S5 & S6 & S7 & S8 & S9 & S10).
  assert (AD : addr32 d) by (unfold d; destruct to; auto).
  assert (REF : forall x, (b = [] \/ LINK_MTU < 14 + zlen b + (if r_hdr t then 0 else 20) \/ (r_hdr t = true /\ zlen b < 20) \/ (d = 0 /\ (r_hdr t = false \/ addr b 16 = 0))) ->
     r_used x = r_used t -> r_proto x = r_proto t -> r_hdr x = r_hdr t -> r_dont x = r_dont t -> r_in x = r_in t -> r_bound x = r_bound t -> r_rx x = r_rx t -> r_ttl x = r_ttl t -> r_tx x = r_tx t -> raw_sent w t to b x (-22)).
  { intros x WHY X1 X2 X3 X4 X5 X6 X7 X8 X9. unfold raw_sent. fold d. repeat (split; [assumption|]). right. left. split; [reflexivity|]. split; assumption. }
  destruct (zlen b =? 0) eqn:C0.
  { exists t, id, (-22). split; [reflexivity|]. split; [assumption|]. apply REF; try reflexivity. left. destruct b; [reflexivity|]. rewrite zlen_cons in C0. pose proof (zlen_nonneg b). lia. }
  rewrite S3, S6, S4, S10, S2, Ed. destruct (LINK_MTU <? 14 + zlen b + (if r_hdr t then 0 else 20)) eqn:C1.
  { exists t0, id, (-22). split; [reflexivity|]. split; [assumption|]. apply REF; try assumption. right. left. lia. }
  unfold LINK_MTU in C1.
  assert (QUEUE : forall t1 f, RI t1 -> raw_tx_ok f -> zlen f = 14 + zlen b + (if r_hdr t then 0 else 20) ->
     r_used t1 = r_used t -> r_proto t1 = r_proto t -> r_hdr t1 = r_hdr t -> r_dont t1 = r_dont t -> r_in t1 = r_in t -> r_bound t1 = r_bound t -> r_rx t1 = r_rx t -> r_ttl t1 = r_ttl t -> r_tx t1 = r_tx t ->
     (if r_hdr t then supplied d b f else exists i, routed w (r_bound t) d (r_dont t) i /\ built w t d i b f) ->
     forall id' : Z, exists t' id'' r, obind (raw_queue t1 f (zlen b)) (fun '(t, r) => Some (t, id', r)) = Some (t', id'', r) /\ RI t' /\ raw_sent w t to b t' r).
  { intros t1 f I1 TX LF X1 X2 X3 X4 X5 X6 X7 X8 X9 SP id'. destruct (raw_queue_spec t1 f (zlen b) I1 TX) as (q & r & E & I2 & C). rewrite E. cbn [obind].
    eexists _, _, _. split; [reflexivity|]. split; [exact I2|]. unfold raw_sent. fold d. cbn [rset_q r_used r_proto r_hdr r_dont r_in r_bound r_rx r_ttl r_tx]. repeat (split; [assumption|]).
    rewrite X9 in C. destruct C as [(-> & C2 & C3)|(-> & C2)].
    - left. split; [reflexivity|]. split; [lia|]. split; [unfold LINK_MTU; lia|]. split; [rewrite <- LF; exact C2|]. exists f. split; [exact SP|exact C3].
    - right. right. split; [reflexivity|exact C2]. }
  destruct (r_hdr t) eqn:HH.
  - destruct (zlen b <? 20) eqn:C2. { exists t0, id, (-22). split; [reflexivity|]. split; [assumption|]. apply REF; try assumption; try congruence. right. right. left. split; [reflexivity|lia]. }
    specialize (HF eq_refl). unfold header_fits in HF. set (f0 := repeat 0 14 ++ b).
    assert (L0 : zlen f0 = 14 + zlen b) by (unfold f0; rewrite zlen_app; reflexivity).
    assert (B0 : Forall byte f0) by (unfold f0; apply Forall_app2; [apply bytes_lit; reflexivity|assumption]).
    assert (Z0 : forall k, 0 <= k -> zget f0 (14 + k) = zget b k) by (intros k K; unfold f0; rewrite zget_app2 by (change (zlen (repeat 0 14)) with 14; lia); f_equal; change (zlen (repeat 0 14)) with 14; lia).
    assert (A0 : addr f0 30 = addr b 16) by (apply addr_ext; intros j J; replace (30 + j) with (14 + (16 + j)) by lia; apply Z0; lia).
    assert (I0 : ihl f0 = 4 * (zget b 0 mod 16)) by (unfold ihl; replace 14 with (14 + 0) by lia; rewrite Z0 by lia; reflexivity).
    assert (exists f, (if d =? 0 then Some f0 else do f <- mwrite f0 30 (be32 d); set_ipck f junk) = Some f /\ Forall byte f /\ supplied d b f /\ ihl f = 4 * (zget b 0 mod 16) /\ dst f = (if d =? 0 then addr b 16 else d)) as (f & EF & BF & SP & IF & DF).
    { destruct (d =? 0) eqn:D0.
      - exists f0. split; [reflexivity|]. split; [assumption|]. split; [|split; [exact I0|exact A0]]. split; [exact L0|]. split; [|lia]. intros _. unfold f0. rewrite part_app_r by (change (zlen (repeat 0 14)) with 14; lia). apply part_all. reflexivity.
      - destruct (mwrite_spec f0 30 (be32 d)) as (f1 & E1 & L1 & Z1 & B1); [lia|change (zlen (be32 d)) with 4; lia|]. rewrite E1. cbn [obind]. specialize (B1 B0 (be32_bytes d)).
        assert (ZZ : forall k, 0 <= k -> ~ (30 <= k < 34) -> zget f1 k = zget f0 k). { intros k K N. rewrite Z1 by lia. change (zlen (be32 d)) with 4. replace ((30 <=? k) && (k <? 30 + 4)) with false by lia. reflexivity. }
        assert (I1 : ihl f1 = 4 * (zget b 0 mod 16)) by (rewrite <- I0; unfold ihl; rewrite ZZ by lia; reflexivity).
        destruct (set_ipck_spec f1 junk B1) as (g & E2 & L2 & B2 & Z2 & V2); [lia|lia|]. exists g. split; [exact E2|]. split; [exact B2|].
        assert (I2 : ihl g = 4 * (zget b 0 mod 16)) by (rewrite <- I1; unfold ihl; rewrite Z2 by lia; reflexivity).
        assert (DG : dst g = d).
        { unfold dst. rewrite (addr_ext g f1 30 30) by (intros j J; apply Z2; lia).
          rewrite (addr_ext f1 (be32 d) 30 0).
          - pose proof (addr_at_be32 0 [] [] d eq_refl AD) as X. cbn [app] in X. rewrite app_nil_r in X. exact X.
          - intros j J. rewrite Z1 by lia. change (zlen (be32 d)) with 4. replace ((30 <=? 30 + j) && (30 + j <? 30 + 4)) with true by lia. f_equal. lia. }
        split; [|split; [exact I2|exact DG]]. split; [lia|]. split; [lia|]. intros _. split; [exact DG|]. split.
        + intros k K N. rewrite Z2 by lia. rewrite ZZ by lia. apply Z0. lia.
        + intros V4 V20. rewrite <- I2. apply V2; [rewrite ZZ by lia; replace 14 with (14 + 0) by lia; rewrite Z0 by lia; exact V4|lia]. }
    rewrite EF. cbn [obind]. rewrite !rd32_addr. fold (dst f) (src f). set (d' := if d =? 0 then dst f else d).
    assert (D' : d' = dst f) by (unfold d'; rewrite DF; destruct (d =? 0); reflexivity).
    assert (AF : forall o, addr32 (addr f o)) by (intros o; pose proof (addr_range f o BF); unfold addr32; lia).
    set (t1 := rset_addr (r_bound t0) (src f) (if d =? 0 then d' else d) (r_if t0) t0).
    assert (H1 : RI t1). { apply RI_addr; [assumption|apply AF| |apply H0]. destruct (d =? 0); [rewrite D'; apply AF|assumption]. }
    rewrite <- S6. fold t1. destruct (d' =? 0) eqn:DZ.
    { exists t1, id, (-22). split; [reflexivity|]. split; [assumption|]. apply REF; try assumption; try congruence. right. right. right. destruct (d =? 0) eqn:D0; [|lia]. split; [lia|]. right. lia. }
    apply QUEUE; try assumption; try reflexivity.
    + destruct H1 as (X1 & X2 & X3 & X4 & (X5 & X6 & X7 & X8)). split; [exact X1|]. split; [exact X2|]. split; [exact X3|]. split; [exact X4|]. split; [exact X5|]. split; [exact X6|]. split; [exact X7|]. apply raw_route_d.
    + destruct SP as (SL & _). split; [exact BF|]. split; [lia|]. split; [lia|]. rewrite IF. lia.
    + destruct SP as (SL & _). lia.
  - destruct (d =? 0) eqn:D0. { exists t0, id, (-22). split; [reflexivity|]. split; [assumption|]. apply REF; try assumption; try congruence. right. right. right. split; [lia|left; reflexivity]. }
    set (ifx := raw_route w (r_bound t) d (r_dont t)). set (loc := raw_local w (r_bound t) (r_local t) ifx).
    assert (AL : addr32 loc) by (apply raw_local_addr; assumption).
    destruct (header_spec2 loc d (u8 (r_proto t)) id (zlen b) AL AD) as (ip & E & L & V & B & G0 & G1 & G2 & G6 & G8 & G9 & G12 & G16); [apply u8_range|lia|].
    replace (zlen b + 20) with (20 + zlen b) by lia. rewrite E. cbn [obind].
    remember (repeat 0 14 ++ ip ++ b) as f eqn:EQ. destruct (frame_parts _ _ _ _ EQ eq_refl L) as (LG & _ & GI & _ & PI & PC & _).
    assert (Hw : forall k o, 0 <= o <= 18 -> k = 14 + o -> word f k = word ip o) by (intros k o K ->; apply word_ext; intros j J; replace (14 + o + j) with (14 + (o + j)) by lia; apply GI; lia).
    assert (Ha : forall k o, 0 <= o <= 16 -> k = 14 + o -> addr f k = addr ip o) by (intros k o K ->; apply addr_ext; intros j J; replace (14 + o + j) with (14 + (o + j)) by lia; apply GI; lia).
    assert (BU : built w t d ifx b f).
    { split; [exact LG|]. split; [exact (eq_trans (GI 0 ltac:(lia)) G0)|]. split; [exact (eq_trans (GI 1 ltac:(lia)) G1)|].
      split; [unfold total; rewrite (Hw 16 2) by lia; exact G2|]. split; [rewrite (Hw 20 6) by lia; exact G6|]. split; [exact (eq_trans (GI 8 ltac:(lia)) G8)|]. split; [exact (eq_trans (GI 9 ltac:(lia)) G9)|].
      split; [unfold dst; rewrite (Ha 30 16) by lia; exact G16|]. split; [unfold src; rewrite (Ha 26 12), G12 by lia; apply raw_local_source|].
      split; [rewrite PI; exact V|]. apply PC. reflexivity. }
    rewrite <- S6. apply (QUEUE (rset_addr (r_bound t0) loc d (u8 ifx) t0)); try assumption; try reflexivity.
    + apply RI_addr; [assumption|exact AL|exact AD|apply u8_range].
    + split; [rewrite EQ; apply Forall_app2; [apply bytes_lit; reflexivity|apply Forall_app2; assumption]|]. split; [lia|]. destruct BU as (_ & B14 & _ & _ & _ & _ & _ & BD & _). split; [lia|]. unfold ihl. rewrite B14. change (4 * (69 mod 16)) with 20. lia.
    + lia.
    + exists ifx. split; [apply raw_route_routed|exact BU].
Qed.

(** ** Packet sockets *)
Lemma part_hit m pos bs m' : 0 <= pos -> zlen bs > 0 -> (forall i, 0 <= i -> zget m' i = if (pos <=? i) && (i <? pos + zlen bs) then zget bs (i - pos) else zget m i) -> zlen m' >= pos + zlen bs -> part m' pos (zlen bs) = bs.
Proof.
  intros P L Z1 ML. apply zget_ext; [apply zlen_part; lia|]. intros i I. rewrite zlen_part in I by lia. rewrite zget_part by lia. rewrite Z1 by lia.
  replace ((pos <=? pos + i) && (pos + i <? pos + zlen bs)) with true by lia. f_equal. lia.
Qed.
Lemma send_pkt_spec w t to b : rworld_ok w -> PI t -> Forall byte b -> (forall a, to = Some a -> zlen (l_addr a) = 8 /\ Forall byte (l_addr a) /\ port_ok (l_proto a)) ->
  exists t' r, send_pkt w t to b = Some (t', r) /\ PI t' /\ pkt_sent w t to b t' r.
Proof.
  intros (((WI & _) & _) & WN) H HB HT. pose proof H as (Q1 & Q2 & Q3 & Q4 & (Q5 & Q6 & Q7)). unfold send_pkt.
  destruct ((zlen b <? 14) || (LINK_MTU <? zlen b)) eqn:C0.
  { exists t, (-22). split; [reflexivity|]. split; [assumption|]. split; [unfold pkt_same; auto|]. split; [reflexivity|]. right. left. split; [reflexivity|]. split; [reflexivity|]. lia. }
  cbv zeta. set (ifx0 := match to with Some a => if (0 <=? l_if a) && (l_if a <? zlen (w_ifs w)) then l_if a else p_if t | None => p_if t end).
  set (ifx := if zlen (w_ifs w) <=? ifx0 then 0 else ifx0). set (pr := match to with Some a => if l_proto a =? 0 then p_proto t else l_proto a | None => p_proto t end).
  assert (CH : chosen_if w t to ifx /\ 0 <= ifx < 256).
  { unfold chosen_if, ifx, ifx0. destruct to as [a|].
    - destruct ((0 <=? l_if a) && (l_if a <? zlen (w_ifs w))) eqn:OK.
      + replace (zlen (w_ifs w) <=? l_if a) with false by lia. split; [|lia]. left. exists a. split; [reflexivity|]. split; [lia|reflexivity].
      + assert (NO : ~ (exists a0, Some a = Some a0 /\ 0 <= l_if a0 < zlen (w_ifs w))) by (intros (a0 & X & Y); injection X as <-; lia).
        destruct (zlen (w_ifs w) <=? p_if t) eqn:Y; (split; [right; split; [exact NO|]; lia|lia]).
    - assert (NO : ~ (exists a0, @None sll = Some a0 /\ 0 <= l_if a0 < zlen (w_ifs w))) by (intros (a0 & X & Y); discriminate).
      destruct (zlen (w_ifs w) <=? p_if t) eqn:Y; (split; [right; split; [exact NO|]; lia|lia]). }
  destruct CH as (CH & IR). set (mac := match to with Some a => if 6 <=? l_halen a then firstn 6 (l_addr a) else part b 0 6 | None => part b 0 6 end).
  assert (exists f1, (match to with Some a => if 6 <=? l_halen a then mwrite b 0 (firstn 6 (l_addr a)) else Some b | None => Some b end) = Some f1 /\ zlen f1 = zlen b /\ part f1 0 6 = mac /\ (forall k, 6 <= k -> zget f1 k = zget b k)) as (f1 & E1 & L1 & P1 & Z1).
  { unfold mac. destruct to as [a|]; [|exists b; auto]. destruct (6 <=? l_halen a); [|exists b; auto]. destruct (HT a eq_refl) as (LA & BA & _).
    assert (L6 : zlen (firstn 6 (l_addr a)) = 6) by (change 6%nat with (Z.to_nat 6); apply zlen_firstn; lia).
    destruct (mwrite_spec b 0 (firstn 6 (l_addr a))) as (f1 & E & L & Z & _); [lia|lia|]. exists f1. split; [exact E|]. split; [exact L|]. split.
    - rewrite <- L6 at 1. eapply part_hit; [lia|lia|exact Z|lia].
    - intros k K. rewrite Z by lia. replace ((0 <=? k) && (k <? 0 + zlen (firstn 6 (l_addr a)))) with false by lia. reflexivity. }
  rewrite E1. cbn [obind].
  assert (exists f2, (match nth_error (w_ifs w) (Z.to_nat ifx) with Some x => mwrite f1 6 (i_mac x) | None => Some f1 end) = Some f2 /\ zlen f2 = zlen b /\ (forall k, 0 <= k < 6 -> zget f2 k = zget f1 k) /\ (forall k, 12 <= k -> zget f2 k = zget b k) /\
     (forall x, nth_error (w_ifs w) (Z.to_nat ifx) = Some x -> part f2 6 6 = i_mac x)) as (f2 & E2 & L2 & K2 & Z2 & P2).
  { destruct (nth_error (w_ifs w) (Z.to_nat ifx)) as [x|] eqn:N.
    - assert (XO : iface_ok x) by (rewrite Forall_forall in WI; apply WI; eapply nth_error_In; exact N). destruct XO as (X1 & _).
      destruct (mwrite_spec f1 6 (i_mac x)) as (f2 & E & L & Z & _); [lia|lia|]. exists f2. split; [exact E|]. split; [lia|]. rewrite X1 in Z. split; [|split].
      + intros k K. rewrite Z by lia. replace ((6 <=? k) && (k <? 6 + 6)) with false by lia. reflexivity.
      + intros k K. rewrite Z by lia. replace ((6 <=? k) && (k <? 6 + 6)) with false by lia. apply Z1. lia.
      + intros y Y. injection Y as <-. pose proof (part_hit f1 6 (i_mac x) f2 ltac:(lia) ltac:(lia) ltac:(rewrite X1; exact Z) ltac:(lia)) as PH. rewrite X1 in PH. exact PH.
    - exists f1. split; [reflexivity|]. split; [exact L1|]. split; [reflexivity|]. split; [intros; apply Z1; lia|discriminate]. }
  rewrite E2. cbn [obind].
  assert (PP : 0 <= pr < 65536). { unfold pr, port_ok in *. destruct to as [a|]; [|lia]. destruct (HT a eq_refl) as (_ & _ & X). unfold port_ok in X. destruct (l_proto a =? 0); lia. }
  assert (exists f, (if pr =? 0 then Some f2 else mwrite f2 12 (be16 pr)) = Some f /\ stamped w t to ifx b f) as (f & E3 & ST).
  { assert (FIN : forall f, zlen f = zlen b -> (forall k, 0 <= k -> ~ (12 <= k < 14) -> zget f k = zget f2 k) -> word f 12 = (if pr =? 0 then word b 12 else pr) -> stamped w t to ifx b f).
    { intros f LF Z3 W3. assert (PE : forall o n, 0 <= o -> 0 <= n -> o + n <= 12 -> part f o n = part f2 o n) by (intros o n O1 O2 O3; apply zget_ext; [rewrite !zlen_part by lia; reflexivity|]; intros i I; rewrite zlen_part in I by lia; rewrite !zget_part by lia; apply Z3; lia).
      split; [exact LF|]. split; [intros k K; rewrite Z3 by lia; apply Z2; lia|]. split; [intros x N; rewrite PE by lia; apply P2; exact N|]. split; [|exact W3].
      fold mac. rewrite PE by lia. rewrite <- P1. apply zget_ext; [rewrite !zlen_part by lia; reflexivity|]. intros i I. rewrite zlen_part in I by lia. rewrite !zget_part by lia. apply K2. lia. }
    destruct (pr =? 0) eqn:P0.
    - exists f2. split; [reflexivity|]. apply FIN; [exact L2|reflexivity|]. apply word_ext. intros j J. apply Z2. lia.
    - destruct (mwrite_spec f2 12 (be16 pr)) as (f & E & L & Z & _); [lia|change (zlen (be16 pr)) with 2; lia|]. exists f. split; [exact E|]. change (zlen (be16 pr)) with 2 in Z. apply FIN; [lia| |].
      + intros k K N. rewrite Z by lia. replace ((12 <=? k) && (k <? 12 + 2)) with false by lia. reflexivity.
      + rewrite (word_ext f (be16 pr) 12 0).
        * pose proof (word_at_be16 0 [] [] pr eq_refl PP) as X. cbn [app] in X. rewrite app_nil_r in X. exact X.
        * intros j J. rewrite Z by lia. replace ((12 <=? 12 + j) && (12 + j <? 12 + 2)) with true by lia. f_equal. lia. }
  rewrite E3. cbn [obind]. assert (U : u8 ifx = ifx) by (unfold u8; apply Z.mod_small; lia). rewrite U.
  assert (I1 : PI (pset_if ifx t)) by (split; [exact Q1|split; [exact Q2|split; [exact Q3|split; [exact Q4|split; [exact Q5|split; [exact IR|exact Q7]]]]]]).
  change (p_tx (pset_if ifx t)) with (p_tx t). destruct (fifo_space (p_tx t) <? zlen b).
  { eexists _, _. split; [reflexivity|]. split; [exact I1|]. split; [unfold pkt_same; auto|]. split; [reflexivity|]. right. right. auto. }
  destruct ST as (LF & ST). assert (LM : 14 <= zlen b <= 1536) by (unfold LINK_MTU in C0; lia).
  destruct (fq_push _ _ _ _ f Q3) as (q & r & q' & EP & FQ & EN & RR & RC & CASES); [unfold DESC; lia|]. rewrite EP. cbn [obind].
  eexists _, _. split; [reflexivity|]. split.
  - eapply PI_tx; [exact I1|exact FQ|]. assert (pkt_tx_ok f) by (unfold pkt_tx_ok; lia). destruct CASES as [(_ & _ & ->)|(_ & [-> | (_ & [-> | ->])])]; [assumption|apply Forall_app; auto|constructor|constructor; auto].
  - split; [unfold pkt_same; auto|]. split; [reflexivity|]. destruct RR as [-> | ->].
    + left. split; [reflexivity|]. split; [unfold LINK_MTU; lia|]. split; [rewrite <- LF; apply RC; reflexivity|]. exists ifx, f. split; [exact CH|]. split; [reflexivity|]. split; [split; assumption|exact EN].
    + right. right. split; [reflexivity|]. destruct CASES as [(_ & X & _)|(X & _)]; [exact X|lia].
Qed.
