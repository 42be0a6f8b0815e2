(** Raw and packet sockets: invariant, single-socket operations. *)
From Verif Require Import Base ListUtil Checksum ChecksumProps Route RouteProps Arp HttpUrl Fifo Forward ForwardSpec ForwardProofs ForwardStep Udp UdpFifo UdpSpec UdpFrames UdpInv Raw RawSpec.

Definition rx_raw (p : list Z) : Prop := 20 <= zlen p <= 65535.
Definition raw_tx_ok (f : list Z) : Prop := Forall byte f /\ 34 <= zlen f <= 1536 /\ dst f <> 0 /\ 14 + ihl f <= zlen f.
Definition rx_pkt (r : list Z) : Prop := 15 <= zlen r <= 1537.
Definition pkt_tx_ok (f : list Z) : Prop := 14 <= zlen f <= 1536.
Definition RI (t : rsock) : Prop :=
  fq (r_used t) RXBUF (r_rx t) (contents (r_rx t)) /\ Forall rx_raw (contents (r_rx t)) /\
  fq (r_used t) TXBUF (r_tx t) (contents (r_tx t)) /\ Forall raw_tx_ok (contents (r_tx t)) /\
  (addr32 (r_bound t) /\ addr32 (r_local t) /\ addr32 (r_remote t) /\ 0 <= r_if t < 256).
Definition PI (t : psock) : Prop :=
  fq (p_used t) RXBUF (p_rx t) (contents (p_rx t)) /\ Forall rx_pkt (contents (p_rx t)) /\
  fq (p_used t) TXBUF (p_tx t) (contents (p_tx t)) /\ Forall pkt_tx_ok (contents (p_tx t)) /\
  (0 <= p_bind t /\ 0 <= p_if t < 256 /\ port_ok (p_proto t)).
Definition RGood (st : rst) : Prop := zlen (t_raw st) = 4 /\ Forall RI (t_raw st) /\ zlen (t_pkt st) = 2 /\ Forall PI (t_pkt st).

Lemma fq0 s : fq false s (fifo_init [] 0) (contents (fifo_init [] 0)).
Proof. split; reflexivity. Qed.
Lemma contents0 : contents (fifo_init [] 0) = []. Proof. reflexivity. Qed.
Lemma RI0 : RI raw0.
Proof. split; [apply fq0|]. split; [constructor|]. split; [apply fq0|]. split; [constructor|]. unfold addr32. cbn. lia. Qed.
Lemma PI0 : PI pkt0.
Proof. split; [apply fq0|]. split; [constructor|]. split; [apply fq0|]. split; [constructor|]. unfold port_ok. cbn. lia. Qed.
Lemma RGood0 : RGood rst0.
Proof.
  split; [reflexivity|]. split; [apply Forall_forall; intros x Hx; apply repeat_spec in Hx as ->; apply RI0|].
  split; [reflexivity|]. apply Forall_forall. intros x Hx. apply repeat_spec in Hx as ->. apply PI0.
Qed.

(** ** Checksums *)
Lemma mread_ext_app (a j : list Z) n : 0 <= n -> n <= zlen a -> mread (a ++ j) 0 n = mread a 0 n.
Proof.
  intros H0 H1. rewrite !mread_part; try lia; [|rewrite zlen_app; pose proof (zlen_nonneg j); lia]. rewrite part_app_l by lia. reflexivity.
Qed.
Lemma mwrite_ext_app (a j : list Z) p bs : 0 <= p -> p + zlen bs <= zlen a -> exists m, mwrite a p bs = Some m /\ mwrite (a ++ j) p bs = Some (m ++ j).
Proof.
  intros H0 H1. unfold mwrite. rewrite zlen_app. pose proof (zlen_nonneg j). pose proof (zlen_nonneg bs).
  replace ((0 <=? p) && (p + zlen bs <=? zlen a)) with true by lia. replace ((0 <=? p) && (p + zlen bs <=? zlen a + zlen j)) with true by lia.
  eexists. split; [reflexivity|]. f_equal. rewrite firstn_app, skipn_app.
  replace (Z.to_nat p - length a)%nat with 0%nat by (unfold zlen in *; lia). replace (Z.to_nat (p + zlen bs) - length a)%nat with 0%nat by (unfold zlen in *; lia).
  cbn [firstn skipn]. rewrite app_nil_r, <- !app_assoc. reflexivity.
Qed.
Lemma ipck_app a j g : 20 <= zlen a -> ihl_bytes (zget a 0) <= zlen a -> iphdr_set_checksum a = Some g -> iphdr_set_checksum (a ++ j) = Some (g ++ j).
Proof.
  intros H0 H1 E. unfold iphdr_set_checksum in *. rewrite mread_ext_app by lia. destruct (mread a 0 1) as [v|] eqn:R; [|discriminate]. cbn [obind] in *.
  rewrite mread_part in R by lia. assert (v = part a 0 1) as -> by congruence. clear R. rewrite zget_part in * by lia. replace (0 + 0) with 0 in * by lia.
  set (h := if ihl_bytes (zget a 0) <? 20 then 20 else ihl_bytes (zget a 0)) in *. assert (Hh : 20 <= h <= zlen a) by (unfold h; destruct (ihl_bytes (zget a 0) <? 20) eqn:Q; lia).
  unfold put16 in *. destruct (mwrite_ext_app a j 10 (Checksum.be16 0)) as (m & W1 & W2); [lia|change (zlen (Checksum.be16 0)) with 2; lia|]. rewrite W2. rewrite W1 in E. cbn [obind] in *.
  assert (LM : zlen m = zlen a) by (apply mwrite_some in W1; apply W1). rewrite mread_ext_app by lia. destruct (mread m 0 h) as [hd|]; [|discriminate]. cbn [obind] in *.
  destruct (fold_loop 2 (sum_words hd 0)) as [s|]; [|discriminate]. cbn [obind] in *.
  destruct (mwrite_ext_app m j 10 (Checksum.be16 (not16 s))) as (m2 & W3 & W4); [lia|change (zlen (Checksum.be16 (not16 s))) with 2; lia|]. congruence.
Qed.
Lemma set_ipck_spec f junk : Forall byte f -> 34 <= zlen f -> 14 + ihl f <= zlen f ->
  exists g, set_ipck f junk = Some g /\ zlen g = zlen f /\ Forall byte g /\ (forall k, 0 <= k -> k <> 24 -> k <> 25 -> zget g k = zget f k) /\
    (zget f 14 / 16 = 4 -> 20 <= ihl f -> ones_complement_valid (part g 14 (ihl g))).
Proof.
  intros HB HL HI. assert (LS : zlen (skipn 14 f) = zlen f - 14) by (change 14%nat with (Z.to_nat 14); apply zlen_skipn; lia).
  assert (Z0 : zget (skipn 14 f) 0 = zget f 14) by (rewrite zget_skipn by lia; reflexivity).
  assert (EH : ihl_bytes (zget (skipn 14 f) 0) = ihl f).
  { rewrite Z0. unfold ihl_bytes, ihl. change 15 with (Z.ones 4). rewrite Z.land_ones by lia. change (2 ^ 4) with 16. lia. }
  assert (LF : zlen (firstn 14 f) = 14) by (change 14%nat with (Z.to_nat 14); apply zlen_firstn; lia).
  destruct (ip_header_checksum_verifies (skipn 14 f)) as (ip & E & L & S & _); [apply Forall_skipn; assumption|lia|lia|].
  pose proof (ipck_app (skipn 14 f) junk ip ltac:(lia) ltac:(lia) E) as EA. unfold set_ipck. rewrite EA. cbn [obind].
  rewrite firstn_app. replace (length f - 14 - length ip)%nat with 0%nat by (unfold zlen in *; lia). cbn [firstn]. rewrite app_nil_r.
  rewrite firstn_all2 by (unfold zlen in *; lia). exists (firstn 14 f ++ ip). split; [reflexivity|].
  assert (BI : Forall byte ip).
  { unfold iphdr_set_checksum in E. rewrite mread_part in E by lia. cbn [obind] in E.
    destruct (mwrite_spec (skipn 14 f) 10 (Checksum.be16 0)) as (m & Em & Lm & _ & Bm); [lia|change (zlen (Checksum.be16 0)) with 2; lia|].
    unfold put16 in E. rewrite Em in E. cbn [obind] in E.
    destruct (mread m 0 _) as [hdr|]; [|discriminate]. cbn [obind] in E. destruct (fold_loop 2 _) as [s|]; [|discriminate]. cbn [obind] in E.
    destruct (mwrite_spec m 10 (Checksum.be16 (not16 s))) as (m2 & Em2 & _ & _ & Bm2); [lia|change (zlen (Checksum.be16 (not16 s))) with 2; lia|].
    assert (m2 = ip) by congruence. subst m2. apply Bm2; [|apply be16_bytes]. apply Bm; [|apply be16_bytes]. apply Forall_skipn. assumption. }
  split; [rewrite zlen_app; lia|]. split; [apply Forall_app; split; [apply Forall_firstn; assumption|assumption]|]. split.
  - intros k K0 K1 K2. destruct (Z.ltb_spec k 14).
    + rewrite zget_app1 by lia. apply zget_firstn. lia.
    + rewrite zget_app2 by lia. rewrite S by lia. rewrite zget_skipn by lia. f_equal. lia.
  - intros V4 H20. destruct (set_ck_spec f HB HL V4 H20 HI) as (g & Eg & _ & _ & Vg & _). unfold set_ck in Eg. rewrite E in Eg. cbn [obind] in Eg. assert (g = firstn 14 f ++ ip) as -> by congruence. exact Vg.
Qed.

(** ** Delivery *)
Lemma raw_same_refl t : raw_same t t. Proof. unfold raw_same. intuition. Qed.
Lemma raw_deliver_spec i f t : 0 <= i < 256 -> holds_packet f -> frame_ok f -> RI t -> r_used t = true ->
  exists t', raw_deliver i f (ip_packet f) t = Some t' /\ RI t' /\
    ((raw_wants i f t /\ raw_handed t f t') \/ (~ raw_wants i f t /\ t' = t)).
Proof.
  intros HI HP (FB & FL) (Q1 & Q2 & Q3 & Q4 & Q5) U. unfold raw_deliver. rewrite U. cbn [negb].
  assert (UI : u8 i = i) by (unfold u8; apply Z.mod_small; lia). rewrite UI, rd32_addr. fold (dst f). fold (proto f). 
  assert (SAME : RI t) by (split; [assumption|]; split; [assumption|]; split; [assumption|]; split; assumption).
  destruct (negb (r_proto t =? 0) && negb (r_proto t =? proto f)) eqn:C1.
  { exists t. split; [reflexivity|]. split; [assumption|]. right. split; [|reflexivity]. intros (_ & W & _). lia. }
  destruct (negb (r_bound t =? 0) && negb (r_bound t =? dst f)) eqn:C2.
  { exists t. split; [reflexivity|]. split; [assumption|]. right. split; [|reflexivity]. intros (_ & _ & W & _). lia. }
  destruct (negb (r_if t =? 0) && negb (r_if t =? i)) eqn:C3.
  { exists t. split; [reflexivity|]. split; [assumption|]. right. split; [|reflexivity]. intros (_ & _ & _ & W). lia. }
  destruct HP as (P1 & P2). assert (LP : zlen (ip_packet f) = total f) by (apply zlen_part; lia).
  destruct (fq_push _ _ _ _ (ip_packet f) Q1) as (q & r & q' & EP & FQ & EN & RR & RC & CASES); [unfold DESC; lia|].
  rewrite EP. cbn [obind]. destruct (fq_con _ _ _ _ FQ) as (FQ' & CQ).
  assert (FR : Forall rx_raw (contents q)).
  { rewrite CQ. assert (rx_raw (ip_packet f)) by (unfold rx_raw; rewrite LP; lia).
    destruct CASES as [(_ & _ & ->)|(_ & [-> | (_ & [-> | ->])])]; [assumption|apply Forall_app; auto|constructor|constructor; auto]. }
  assert (WN : raw_wants i f t).
  { split; [split; assumption|]. split; [destruct (Z.eq_dec (r_proto t) 0); [auto|right; lia]|]. split; [destruct (Z.eq_dec (r_bound t) 0); [auto|right; lia]|]. destruct (Z.eq_dec (r_if t) 0); [auto|right; lia]. }
  eexists. split; [reflexivity|]. split.
  - destruct (r =? 0); (split; [exact FQ'|split; [exact FR|split; [exact Q3|split; [exact Q4|exact Q5]]]]).
  - left. split; [exact WN|]. destruct (r =? 0) eqn:R0.
    + split; [unfold raw_same; cbn; auto 10|]. split; [reflexivity|]. split; [exact EN|]. reflexivity.
    + split; [unfold raw_same; cbn; auto 10|]. split; [reflexivity|]. split; [exact EN|]. intros C. apply RC in C. lia.
Qed.
Lemma pkt_deliver_spec i f wild t : 0 <= i < 256 -> frame_ok f -> 14 <= zlen f <= 1536 -> PI t -> p_used t = true ->
  exists t', pkt_deliver i f wild t = Some t' /\ PI t' /\
    ((pkt_wants i f wild t /\ pkt_handed i t f t') \/ (~ pkt_wants i f wild t /\ t' = t)).
Proof.
  intros HI (FB & FL) LF (Q1 & Q2 & Q3 & Q4 & Q5) U. unfold pkt_deliver. rewrite U. cbn [negb].
  assert (UI : u8 i = i) by (unfold u8; apply Z.mod_small; lia). rewrite UI. change (rd16 f 12) with (word f 12).
  assert (SAME : PI t) by (split; [assumption|]; split; [assumption|]; split; [assumption|]; split; assumption).
  destruct (negb (p_proto t =? 0) && negb (p_proto t =? word f 12)) eqn:C1.
  { exists t. split; [reflexivity|]. split; [assumption|]. right. split; [|reflexivity]. intros (_ & W & _). lia. }
  destruct Q5 as (B0 & B1 & B2).
  match goal with |- context [if ?b then Some t else _] => destruct b eqn:C2 end.
  { exists t. split; [reflexivity|]. split; [assumption|]. right. split; [|reflexivity]. intros (_ & _ & W). destruct wild; [destruct W as [W|(_ & W)]; lia|]. destruct W as [W|(W & _)]; [lia|discriminate]. }
  assert (WN : pkt_wants i f wild t).
  { split; [unfold LINK_MTU; lia|]. split; [destruct (Z.eq_dec (p_proto t) 0); [auto|right; lia]|]. destruct wild; [|left; lia]. destruct (Z.eq_dec (p_bind t) i); [auto|]. right. split; [reflexivity|lia]. }
  assert (LR : zlen (record i f) = zlen f + 1) by (unfold record; rewrite zlen_cons; lia).
  destruct (fifo_space (p_rx t) <? zlen f + 1 + DESC) eqn:C3.
  { exists t. split; [reflexivity|]. split; [assumption|]. left. split; [exact WN|]. split; [unfold pkt_same; auto|]. split; [reflexivity|]. split; [reflexivity|]. left. split; [unfold crowded; lia|reflexivity]. }
  destruct (fq_push _ _ _ _ (record i f) Q1) as (q & r & q' & EP & FQ & EN & RR & RC & CASES); [unfold DESC; lia|].
  fold (record i f). rewrite EP. cbn [obind]. destruct (fq_con _ _ _ _ FQ) as (FQ' & CQ).
  assert (FR : Forall rx_pkt (contents q)).
  { rewrite CQ. assert (rx_pkt (record i f)) by (unfold rx_pkt; lia).
    destruct CASES as [(_ & _ & ->)|(_ & [-> | (_ & [-> | ->])])]; [assumption|apply Forall_app; auto|constructor|constructor; auto]. }
  eexists. split; [reflexivity|]. split; [split; [exact FQ'|split; [exact FR|split; [exact Q3|split; [exact Q4|split; [exact B0|split; [exact B1|exact B2]]]]]]|].
  left. split; [exact WN|]. split; [unfold pkt_same; auto|]. split; [reflexivity|]. split; [reflexivity|]. right. split; [unfold crowded; lia|exact EN].
Qed.

(** ** recvfrom *)
Lemma skip_peek o s f q : fq o s f q -> exists f' p, fifo_peek f = (f', p) /\ fq o s f' q.
Proof. intros H. destruct (fq_peek _ _ _ _ H) as (f' & p & E & Q & _). eauto. Qed.
Lemma recv_raw_spec t n : RI t -> exists t' r, recv_raw t n = Some (t', r) /\ RI t' /\ raw_same t t' /\ r_tx t' = r_tx t /\ r_ttl t' = r_ttl t /\
  match contents (r_rx t) with
  | [] => r = XZ (-11) /\ contents (r_rx t') = []
  | p :: l => contents (r_rx t') = l /\ ((zlen p <= n /\ r = XData p (addr p 12)) \/ (n < zlen p /\ r = XZ (-22)))
  end.
Proof.
  intros (Q1 & Q2 & Q3 & Q4 & Q5). unfold recv_raw. destruct (fq_peek _ _ _ _ Q1) as (q & p & EP & FQ & CS). rewrite EP.
  assert (MK : forall q2 l, fq (r_used t) RXBUF q2 l -> Forall rx_raw l -> RI (rset_q q2 (r_tx t) t) /\ raw_same t (rset_q q2 (r_tx t) t) /\ contents q2 = l).
  { intros q2 l F A. destruct (fq_con _ _ _ _ F) as (F' & C). split; [split; [exact F'|split; [cbn [r_rx rset_q]; rewrite C; exact A|split; [exact Q3|split; [exact Q4|exact Q5]]]]|]. split; [unfold raw_same; auto 10|exact C]. }
  destruct CS as [(CE & ->)|(pos & d & l & fl & tm & CE & -> & _ & _ & LD & _ & MR & (q2 & E2 & F2) & _)]; rewrite CE in *.
  - destruct (MK _ _ FQ Q2) as (A & B & C). eexists _, _. split; [reflexivity|]. split; [exact A|]. split; [exact B|]. split; [reflexivity|]. split; [reflexivity|]. split; [reflexivity|exact C].
  - rewrite LD. cbn [obind d_len d_pos]. inversion Q2 as [|? ? D1 D2]. subst. destruct D1 as (D1 & D1').
    replace (zlen d <? 20) with false by lia. rewrite E2. cbn [obind]. destruct (skip_peek _ _ _ _ F2) as (q3 & p3 & E3 & F3). rewrite E3.
    destruct (MK _ _ F3 D2) as (A & B & C). destruct (n <? zlen d) eqn:ND.
    + eexists _, _. split; [reflexivity|]. split; [exact A|]. split; [exact B|]. split; [reflexivity|]. split; [reflexivity|]. split; [exact C|]. right. split; [lia|reflexivity].
    + rewrite MR. cbn [obind]. rewrite ?rd32_addr. eexists _, _. split; [reflexivity|]. split; [exact A|]. split; [exact B|]. split; [reflexivity|]. split; [reflexivity|]. split; [exact C|]. left. split; [lia|reflexivity].
Qed.
Lemma recv_pkt_spec t n : PI t -> exists t' r, recv_pkt t n = Some (t', r) /\ PI t' /\ pkt_same t t' /\ p_if t' = p_if t /\ p_tx t' = p_tx t /\
  match contents (p_rx t) with
  | [] => r = XZ (-11) /\ contents (p_rx t') = []
  | p :: l => contents (p_rx t') = l /\ let f := skipn 1 p in
      ((zlen f <= n /\ r = XFrame f (zget p 0) (word f 12) (part f 6 6)) \/ (n < zlen f /\ r = XZ (-22)))
  end.
Proof.
  intros (Q1 & Q2 & Q3 & Q4 & Q5). unfold recv_pkt. destruct (fq_peek _ _ _ _ Q1) as (q & p & EP & FQ & CS). rewrite EP.
  assert (MK : forall q2 l, fq (p_used t) RXBUF q2 l -> Forall rx_pkt l -> PI (pset_q q2 (p_tx t) t) /\ pkt_same t (pset_q q2 (p_tx t) t) /\ contents q2 = l).
  { intros q2 l F A. destruct (fq_con _ _ _ _ F) as (F' & C). split; [split; [exact F'|split; [cbn [p_rx pset_q]; rewrite C; exact A|split; [exact Q3|split; [exact Q4|exact Q5]]]]|]. split; [unfold pkt_same; auto|exact C]. }
  destruct CS as [(CE & ->)|(pos & d & l & fl & tm & CE & -> & _ & _ & LD & _ & MR & (q2 & E2 & F2) & _)]; rewrite CE in *.
  - destruct (MK _ _ FQ Q2) as (A & B & C). eexists _, _. split; [reflexivity|]. split; [exact A|]. split; [exact B|]. split; [reflexivity|]. split; [reflexivity|]. split; [reflexivity|exact C].
  - rewrite LD. cbn [obind d_len d_pos]. inversion Q2 as [|? ? D1 D2]. subst. destruct D1 as (D1 & D1').
    replace (zlen d =? 0) with false by lia. rewrite E2. cbn [obind]. destruct (skip_peek _ _ _ _ F2) as (q3 & p3 & E3 & F3). rewrite E3.
    assert (LS : zlen (skipn 1 d) = zlen d - 1) by (change 1%nat with (Z.to_nat 1); apply zlen_skipn; lia).
    destruct (MK _ _ F3 D2) as (A & B & C). destruct (n <? zlen d - 1) eqn:ND.
    + eexists _, _. split; [reflexivity|]. split; [exact A|]. split; [exact B|]. split; [reflexivity|]. split; [reflexivity|]. split; [exact C|]. right. split; [lia|reflexivity].
    + rewrite MR. cbn [obind]. eexists _, _. split; [reflexivity|]. split; [exact A|]. split; [exact B|]. split; [reflexivity|]. split; [reflexivity|]. split; [exact C|]. left. split; [lia|reflexivity].
Qed.

(** ** The tables *)
Lemma F2_mapo {A} (g : A -> option A) (P : A -> Prop) (R : A -> A -> Prop) : forall l, Forall P l -> (forall t, P t -> exists t', g t = Some t' /\ P t' /\ R t t') ->
  exists l', mapo g l = Some l' /\ Forall P l' /\ Forall2 R l l'.
Proof.
  induction l as [|t l IH]; intros F H; [exists []; split; [reflexivity|]; split; constructor|]. inversion F as [|? ? P1 P2]; subst.
  destruct (H t P1) as (t' & E & P' & R'). destruct (IH P2 H) as (l' & E2 & P2' & R2). exists (t' :: l'). cbn [mapo]. rewrite E. cbn [obind]. rewrite E2. cbn [obind].
  split; [reflexivity|]. split; constructor; assumption.
Qed.
Definition raw_got (i : Z) (f : list Z) (t t' : rsock) : Prop := (r_used t = true /\ raw_wants i f t /\ raw_handed t f t') \/ (~ (r_used t = true /\ raw_wants i f t) /\ t' = t).
Definition pkt_got (i : Z) (f : list Z) (wild : bool) (t t' : psock) : Prop := (p_used t = true /\ pkt_wants i f wild t /\ pkt_handed i t f t') \/ (~ (p_used t = true /\ pkt_wants i f wild t) /\ t' = t).
Lemma raw_try_spec st i f : 0 <= i < 256 -> frame_ok f -> RGood st -> exists st', raw_try_recv st i f = Some st' /\ RGood st' /\
  t_pkt st' = t_pkt st /\ t_id st' = t_id st /\ Forall2 (raw_got i f) (t_raw st) (t_raw st').
Proof.
  intros HI FO (G1 & G2 & G3 & G4). unfold raw_try_recv.
  assert (NO : ~ holds_packet f -> exists st', Some st = Some st' /\ RGood st' /\ t_pkt st' = t_pkt st /\ t_id st' = t_id st /\ Forall2 (raw_got i f) (t_raw st) (t_raw st')).
  { intros N. exists st. split; [reflexivity|]. split; [split; [assumption|]; split; [assumption|]; split; assumption|]. split; [reflexivity|]. split; [reflexivity|].
    clear - N. induction (t_raw st) as [|t l IH]; constructor; [|assumption]. right. split; [|reflexivity]. intros (_ & W & _). contradiction. }
  destruct (zlen f <=? 14) eqn:C1; [apply NO; unfold holds_packet; lia|]. destruct (zlen f - 14 <? 20) eqn:C2; [apply NO; unfold holds_packet; lia|].
  change (rd16 f 16) with (total f). destruct (total f <? 20) eqn:C3; [apply NO; unfold holds_packet; lia|]. destruct (zlen f - 14 <? total f) eqn:C4; [apply NO; unfold holds_packet; lia|].
  assert (HP : holds_packet f) by (unfold holds_packet; lia). rewrite mread_part by lia. cbn [obind]. fold (ip_packet f).
  destruct (F2_mapo (raw_deliver i f (ip_packet f)) RI (raw_got i f) (t_raw st) G2) as (l & E & P & R).
  { intros t T. destruct (r_used t) eqn:U.
    - destruct (raw_deliver_spec i f t HI HP FO T U) as (t' & E & T' & C). exists t'. split; [exact E|]. split; [exact T'|].
      destruct C as [(W & H)|(W & H)]; [left; auto|right]. split; [intros (_ & X); contradiction|exact H].
    - exists t. unfold raw_deliver. rewrite U. split; [reflexivity|]. split; [exact T|]. right. split; [intros (X & _); congruence|reflexivity]. }
  rewrite E. cbn [obind]. eexists. split; [reflexivity|]. split; [|split; [reflexivity|split; [reflexivity|exact R]]].
  split; [cbn [t_raw]; rewrite (F2_length _ _ _ R); exact G1|]. split; [exact P|]. split; assumption.
Qed.
Lemma pkt_try_spec st i f wild : 0 <= i < 256 -> frame_ok f -> 14 <= zlen f -> RGood st -> exists st', pkt_try_recv st i f wild = Some st' /\ RGood st' /\
  t_raw st' = t_raw st /\ t_id st' = t_id st /\ Forall2 (pkt_got i f wild) (t_pkt st) (t_pkt st').
Proof.
  intros HI FO L (G1 & G2 & G3 & G4). unfold pkt_try_recv. destruct (LINK_MTU <? zlen f) eqn:C1.
  { cbn [orb]. exists st. split; [reflexivity|]. split; [split; [assumption|]; split; [assumption|]; split; assumption|]. split; [reflexivity|]. split; [reflexivity|].
    assert (N : LINK_MTU < zlen f) by lia. clear - N. induction (t_pkt st) as [|t l IH]; constructor; [|assumption]. right. split; [|reflexivity]. intros (_ & W & _). lia. }
  replace (zlen f =? 0) with false by lia. cbn [orb].
  destruct (F2_mapo (pkt_deliver i f wild) PI (pkt_got i f wild) (t_pkt st) G4) as (l & E & P & R).
  { intros t T. destruct (p_used t) eqn:U.
    - destruct (pkt_deliver_spec i f wild t HI FO ltac:(unfold LINK_MTU in *; lia) T U) as (t' & E & T' & C). exists t'. split; [exact E|]. split; [exact T'|].
      destruct C as [(W & H)|(W & H)]; [left; auto|right]. split; [intros (_ & X); contradiction|exact H].
    - exists t. unfold pkt_deliver. rewrite U. split; [reflexivity|]. split; [exact T|]. right. split; [intros (X & _); congruence|reflexivity]. }
  rewrite E. cbn [obind]. eexists. split; [reflexivity|]. split; [|split; [reflexivity|split; [reflexivity|exact R]]].
  split; [exact G1|]. split; [exact G2|]. split; [cbn [t_pkt]; rewrite (F2_length _ _ _ R); exact G3|exact P].
Qed.
Lemma raw_at_in st i t : nth_error (t_raw st) (Z.to_nat i) = Some t -> raw_at st i = t.
Proof. intros H. unfold raw_at. apply nth_error_nth. assumption. Qed.
Lemma pkt_at_in st i t : nth_error (t_pkt st) (Z.to_nat i) = Some t -> pkt_at st i = t.
Proof. intros H. unfold pkt_at. apply nth_error_nth. assumption. Qed.
Lemma raw_ok_slot st i : raw_ok st i = true <-> raw_slot st i (raw_at st i).
Proof.
  unfold raw_ok, raw_slot. split.
  - rewrite !andb_true_iff. intros ((H1 & H2) & H3). split; [lia|]. split; [|exact H3]. unfold raw_at. apply nth_error_nth'. unfold zlen in *. lia.
  - intros (H & N & U). assert (Z.to_nat i < length (t_raw st))%nat by (apply nth_error_Some; congruence). rewrite U. unfold zlen. rewrite !andb_true_iff. split; [lia|reflexivity].
Qed.
Lemma pkt_ok_slot st i : pkt_ok st i = true <-> pkt_slot st i (pkt_at st i).
Proof.
  unfold pkt_ok, pkt_slot. split.
  - rewrite !andb_true_iff. intros ((H1 & H2) & H3). split; [lia|]. split; [|exact H3]. unfold pkt_at. apply nth_error_nth'. unfold zlen in *. lia.
  - intros (H & N & U). assert (Z.to_nat i < length (t_pkt st))%nat by (apply nth_error_Some; congruence). rewrite U. unfold zlen. rewrite !andb_true_iff. split; [lia|reflexivity].
Qed.
Lemma Fnth {A} (P : A -> Prop) l n x : Forall P l -> nth_error l n = Some x -> P x.
Proof. intros F N. rewrite Forall_forall in F. apply F. eapply nth_error_In. exact N. Qed.
Lemma Fset {A} (P : A -> Prop) l i x : Forall P l -> P x -> Forall P (set_nth i x l).
Proof. intros H HP. apply Forall_forall. intros y Hy. apply set_nth_in in Hy as [-> | Hy]; [assumption|]. rewrite Forall_forall in H. auto. Qed.
Lemma put_raw_good st i t : RGood st -> RI t -> RGood (put_raw st i t).
Proof. intros (G1 & G2 & G3 & G4) R. split; [unfold put_raw, zlen; cbn [t_raw]; rewrite set_nth_length; exact G1|]. split; [apply Fset; assumption|]. split; assumption. Qed.
Lemma put_pkt_good st i t : RGood st -> PI t -> RGood (put_pkt st i t).
Proof. intros (G1 & G2 & G3 & G4) R. split; [exact G1|]. split; [exact G2|]. split; [unfold put_pkt, zlen; cbn [t_pkt]; rewrite set_nth_length; exact G3|]. apply Fset; assumption. Qed.
Lemma at_RI st i : RGood st -> raw_ok st i = true -> RI (raw_at st i).
Proof. intros (_ & G & _) H. apply raw_ok_slot in H as (_ & N & _). eapply Fnth; eassumption. Qed.
Lemma at_PI st i : RGood st -> pkt_ok st i = true -> PI (pkt_at st i).
Proof. intros (_ & _ & _ & G) H. apply pkt_ok_slot in H as (_ & N & _). eapply Fnth; eassumption. Qed.
