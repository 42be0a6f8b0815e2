(** Raw and packet sockets: every operation, seen from one slot. *)
From Verif Require Import Base ListUtil Checksum ChecksumProps Route RouteProps Arp HttpUrl Fifo Forward ForwardSpec ForwardProofs ForwardStep Udp UdpFifo UdpSpec UdpFrames UdpInv UdpOps UdpFlush UdpSafe Raw RawSpec RawInv RawSend RawFlush.

(** ** The flush of a table *)
Definition raw_flushed (w : world) (o : oracle) (j : Z) (e : list rev) (t t' : rsock) : Prop :=
  rcalm t t' /\ Forall (fun x => raw_frame w o t (fst x) (snd x)) (raw_out j e) /\
  Forall2 same_packet (map snd (raw_out j e) ++ contents (r_tx t')) (contents (r_tx t)) /\ (clear_way w o -> contents (r_tx t') = []).
Definition pkt_flushed (w : world) (j : Z) (e : list rev) (t t' : psock) : Prop :=
  pkt_same t t' /\ p_if t' = p_if t /\ p_rx t' = p_rx t /\ contents (p_tx t') = [] /\ pkt_out j e = map (fun f => (pkt_if w t, f)) (contents (p_tx t)).
Lemma raw_out_app j a b : raw_out j (a ++ b) = raw_out j a ++ raw_out j b.
Proof. induction a as [|x a IH]; [reflexivity|]. destruct x; cbn [app raw_out]; rewrite IH; try reflexivity; destruct (slot =? j); reflexivity. Qed.
Lemma pkt_out_app j a b : pkt_out j (a ++ b) = pkt_out j a ++ pkt_out j b.
Proof. induction a as [|x a IH]; [reflexivity|]. destruct x; cbn [app pkt_out]; rewrite IH; try reflexivity; destruct (slot =? j); reflexivity. Qed.
Lemma tx_room u q : fq u TXBUF q (contents q) -> (length (contents q) < 2051)%nat.
Proof.
  destruct u; intros H.
  - apply fq_count in H. unfold zlen, TXBUF in H. lia.
  - destruct H as (_ & ->). cbn [length]. lia.
Qed.
Lemma rcalm_refl t : rcalm t t. Proof. unfold rcalm. auto 20. Qed.
Lemma unused_tx t : RI t -> r_used t = false -> contents (r_tx t) = [].
Proof. intros (_ & _ & Q & _) U. rewrite U in Q. destruct Q as (_ & Q). exact Q. Qed.
Lemma unused_ptx t : PI t -> p_used t = false -> contents (p_tx t) = [].
Proof. intros (_ & _ & Q & _) U. rewrite U in Q. destruct Q as (_ & Q). exact Q. Qed.
Lemma flush_raws_spec w o : rworld_ok w -> omacs o -> forall l i k, Forall RI l ->
  exists l' k' e, flush_raws w i l o k = Some (l', k', e) /\ Forall RI l' /\ zlen l' = zlen l /\ (forall j, ~ (i <= j < i + zlen l) -> raw_out j e = []) /\ (forall j, pkt_out j e = []) /\
    Forall (raw_wire w) e /\ forall n t, nth_error l n = Some t -> exists t', nth_error l' n = Some t' /\ raw_flushed w o (i + Z.of_nat n) e t t'.
Proof.
  intros HW MO. induction l as [|t l IH]; intros i k F; cbn [flush_raws].
  { exists [], k, []. split; [reflexivity|]. split; [constructor|]. split; [reflexivity|]. split; [reflexivity|]. split; [reflexivity|]. split; [constructor|]. intros n t N. destruct n; discriminate. }
  inversion F as [|? ? T F']; subst.
  assert (exists t' k' e, (if r_used t then flush_raw 2051 w i t o k else Some (t, k, [])) = Some (t', k', e) /\ RI t' /\ raw_flushed w o i e t t' /\
     (forall j, j <> i -> raw_out j e = []) /\ (forall j, pkt_out j e = []) /\ Forall (raw_wire w) e) as (t' & k1 & e1 & E1 & T' & FL & A1 & A2 & A3).
  { destruct (r_used t) eqn:U.
    - destruct (flush_raw_spec w i o HW MO 2051 t k U T) as (t' & k' & e & E & T' & C & p & (P1 & P2 & P3 & P4 & P5) & SM & CW); [eapply tx_room; apply T|].
      exists t', k', e. split; [exact E|]. split; [exact T'|]. subst p. split; [split; [exact C|]; split; [exact P5|]; split; [exact SM|exact CW]|]. auto.
    - exists t, k, []. split; [reflexivity|]. split; [exact T|]. split; [|split; [reflexivity|split; [reflexivity|constructor]]].
      split; [apply rcalm_refl|]. split; [constructor|]. cbn [raw_out map app]. split; [apply same_packet_all|]. intros _. apply unused_tx; assumption. }
  rewrite E1. cbn [obind]. destruct (IH (i + 1) k1 F') as (l' & k2 & e2 & E2 & F2 & L2 & B1 & B2 & B3 & B4). rewrite E2. cbn [obind].
  exists (t' :: l'), k2, (e1 ++ e2). split; [reflexivity|]. split; [constructor; assumption|]. split; [rewrite !zlen_cons; lia|]. rewrite zlen_cons.
  split. { intros j J. rewrite raw_out_app, A1 by (intros ->; pose proof (zlen_nonneg l); lia). apply B1. lia. }
  split. { intros j. rewrite pkt_out_app, A2. apply B2. }
  split; [apply Forall_app; split; assumption|]. intros n u N. destruct n as [|n].
  - injection N as <-. exists t'. split; [reflexivity|]. change (Z.of_nat 0) with 0. rewrite Z.add_0_r. unfold raw_flushed in *. rewrite raw_out_app, (B1 i), app_nil_r by lia. exact FL.
  - destruct (B4 n u N) as (u' & N' & FU). exists u'. split; [exact N'|]. replace (i + Z.of_nat (S n)) with (i + 1 + Z.of_nat n) by lia. unfold raw_flushed in *. rewrite raw_out_app, A1 by lia. exact FU.
Qed.
Lemma flush_pkts_spec w o : forall l i k, Forall PI l ->
  exists l' k' e, flush_pkts w i l o k = Some (l', k', e) /\ Forall PI l' /\ zlen l' = zlen l /\ (forall j, ~ (i <= j < i + zlen l) -> pkt_out j e = []) /\ (forall j, raw_out j e = []) /\
    Forall (raw_wire w) e /\ forall n t, nth_error l n = Some t -> exists t', nth_error l' n = Some t' /\ pkt_flushed w (i + Z.of_nat n) e t t'.
Proof.
  induction l as [|t l IH]; intros i k F; cbn [flush_pkts].
  { exists [], k, []. split; [reflexivity|]. split; [constructor|]. split; [reflexivity|]. split; [reflexivity|]. split; [reflexivity|]. split; [constructor|]. intros n t N. destruct n; discriminate. }
  inversion F as [|? ? T F']; subst.
  assert (exists t' k' e, (if p_used t then flush_pkt 2051 w i t o k else Some (t, k, [])) = Some (t', k', e) /\ PI t' /\ pkt_flushed w i e t t' /\
     (forall j, j <> i -> pkt_out j e = []) /\ (forall j, raw_out j e = []) /\ Forall (raw_wire w) e) as (t' & k1 & e1 & E1 & T' & FL & A1 & A2 & A3).
  { destruct (p_used t) eqn:U.
    - destruct (flush_pkt_spec w i o 2051 t k U T) as (t' & k' & e & E & T' & C & I' & X' & CE & P1 & P2 & P3 & P4); [eapply tx_room; apply T|].
      exists t', k', e. split; [exact E|]. split; [exact T'|]. split; [split; [exact C|]; split; [exact I'|]; split; [exact X'|]; split; [exact CE|exact P1]|]. auto.
    - exists t, k, []. split; [reflexivity|]. split; [exact T|]. split; [|split; [reflexivity|split; [reflexivity|constructor]]].
      pose proof (unused_ptx t T U) as CE. split; [unfold pkt_same; auto|]. split; [reflexivity|]. split; [reflexivity|]. split; [exact CE|]. rewrite CE. reflexivity. }
  rewrite E1. cbn [obind]. destruct (IH (i + 1) k1 F') as (l' & k2 & e2 & E2 & F2 & L2 & B1 & B2 & B3 & B4). rewrite E2. cbn [obind].
  exists (t' :: l'), k2, (e1 ++ e2). split; [reflexivity|]. split; [constructor; assumption|]. split; [rewrite !zlen_cons; lia|]. rewrite zlen_cons.
  split. { intros j J. rewrite pkt_out_app, A1 by (intros ->; pose proof (zlen_nonneg l); lia). apply B1. lia. }
  split. { intros j. rewrite raw_out_app, A2. apply B2. }
  split; [apply Forall_app; split; assumption|]. intros n u N. destruct n as [|n].
  - injection N as <-. exists t'. split; [reflexivity|]. change (Z.of_nat 0) with 0. rewrite Z.add_0_r. unfold pkt_flushed in *. rewrite pkt_out_app, (B1 i), app_nil_r by lia. exact FL.
  - destruct (B4 n u N) as (u' & N' & FU). exists u'. split; [exact N'|]. replace (i + Z.of_nat (S n)) with (i + 1 + Z.of_nat n) by lia. unfold pkt_flushed in *. rewrite pkt_out_app, A1 by lia. exact FU.
Qed.

(** ** One operation *)
Definition raw_read (t : rsock) (n : Z) (t' : rsock) (r : rres) : Prop := raw_same t t' /\ r_tx t' = r_tx t /\ r_ttl t' = r_ttl t /\
  match contents (r_rx t) with
  | [] => r = XZ (-11) /\ contents (r_rx t') = []
  | p :: l => contents (r_rx t') = l /\ ((zlen p <= n /\ r = XData p (addr p 12)) \/ (n < zlen p /\ r = XZ (-22)))
  end.
Definition pkt_read (t : psock) (n : Z) (t' : psock) (r : rres) : Prop := pkt_same t t' /\ p_if t' = p_if t /\ p_tx t' = p_tx t /\
  match contents (p_rx t) with
  | [] => r = XZ (-11) /\ contents (p_rx t') = []
  | p :: l => contents (p_rx t') = l /\ let f := skipn 1 p in ((zlen f <= n /\ r = XFrame f (zget p 0) (word f 12) (part f 6 6)) \/ (n < zlen f /\ r = XZ (-22)))
  end.
Definition raw_eff (w : world) (o : rop) (r : rres) (e : list rev) (j : Z) (t t' : rsock) : Prop :=
  match o with
  | PSendRaw i to b _ => if i =? j then exists v, r = XZ v /\ raw_sent w t to b t' v else t' = t
  | PRecvRaw i n => if i =? j then raw_read t n t' r else t' = t
  | PInIp i f => raw_got i f t t'
  | PFlush o => raw_flushed w o j e t t'
  | _ => r_rx t' = r_rx t /\ r_tx t' = r_tx t
  end.
Definition pkt_eff (w : world) (o : rop) (r : rres) (e : list rev) (j : Z) (t t' : psock) : Prop :=
  match o with
  | PSendPkt i to b => if i =? j then exists v, r = XZ v /\ pkt_sent w t to b t' v else t' = t
  | PRecvPkt i n => if i =? j then pkt_read t n t' r else t' = t
  | PInFrame i f wild => pkt_got i f wild t t'
  | PFlush o => pkt_flushed w j e t t'
  | _ => p_rx t' = p_rx t /\ p_tx t' = p_tx t
  end.
Definition kept_open (o : rop) (j : Z) : Prop := match o with PCloseRaw i => i <> j | _ => True end.
Definition pkept_open (o : rop) (j : Z) : Prop := match o with PClosePkt i => i <> j | _ => True end.

Lemma free_raw_spec : forall l k i, free_raw l k = Some i -> k <= i < k + zlen l /\ exists t, nth_error l (Z.to_nat (i - k)) = Some t /\ r_used t = false.
Proof.
  induction l as [|t l IH]; intros k i E; [discriminate|]. cbn [free_raw] in E. rewrite zlen_cons. pose proof (zlen_nonneg l). destruct (r_used t) eqn:U.
  - destruct (IH _ _ E) as (B & u & N & V). split; [lia|]. exists u. split; [|exact V]. replace (Z.to_nat (i - k)) with (S (Z.to_nat (i - (k + 1)))) by lia. exact N.
  - assert (k = i) as <- by congruence. split; [lia|]. exists t. rewrite Z.sub_diag. auto.
Qed.
Lemma free_pkt_spec : forall l k i, free_pkt l k = Some i -> k <= i < k + zlen l /\ exists t, nth_error l (Z.to_nat (i - k)) = Some t /\ p_used t = false.
Proof.
  induction l as [|t l IH]; intros k i E; [discriminate|]. cbn [free_pkt] in E. rewrite zlen_cons. pose proof (zlen_nonneg l). destruct (p_used t) eqn:U.
  - destruct (IH _ _ E) as (B & u & N & V). split; [lia|]. exists u. split; [|exact V]. replace (Z.to_nat (i - k)) with (S (Z.to_nat (i - (k + 1)))) by lia. exact N.
  - assert (k = i) as <- by congruence. split; [lia|]. exists t. rewrite Z.sub_diag. auto.
Qed.
(** Writing slot [i] seen from slot [j]. *)
Lemma raw_put_slot st i t' j t : 0 <= i -> raw_slot st j t -> (i = j -> r_used t' = true) ->
  raw_slot (put_raw st i t') j (if i =? j then t' else t).
Proof.
  intros I (J & N & U) V. split; [exact J|]. unfold put_raw. cbn [t_raw]. destruct (i =? j) eqn:E.
  - assert (i = j) by lia. subst j. split; [apply set_nth_same; apply nth_error_Some; congruence|auto].
  - split; [rewrite set_nth_other by lia; exact N|exact U].
Qed.
Lemma pkt_put_slot st i t' j t : 0 <= i -> pkt_slot st j t -> (i = j -> p_used t' = true) ->
  pkt_slot (put_pkt st i t') j (if i =? j then t' else t).
Proof.
  intros I (J & N & U) V. split; [exact J|]. unfold put_pkt. cbn [t_pkt]. destruct (i =? j) eqn:E.
  - assert (i = j) by lia. subst j. split; [apply set_nth_same; apply nth_error_Some; congruence|auto].
  - split; [rewrite set_nth_other by lia; exact N|exact U].
Qed.
Definition effects (w : world) (st : rst) (o : rop) (st' : rst) (r : rres) (e : list rev) : Prop :=
  RGood st' /\ Forall (raw_wire w) e /\
  (forall j t, raw_slot st j t -> kept_open o j -> exists t', raw_slot st' j t' /\ raw_eff w o r e j t t') /\
  (forall j t, pkt_slot st j t -> pkept_open o j -> exists t', pkt_slot st' j t' /\ pkt_eff w o r e j t t').
Lemma raw_slot_at st j t : raw_slot st j t -> raw_at st j = t. Proof. intros (_ & N & _). apply raw_at_in. exact N. Qed.
Lemma pkt_slot_at st j t : pkt_slot st j t -> pkt_at st j = t. Proof. intros (_ & N & _). apply pkt_at_in. exact N. Qed.
(** nothing happened, as far as the tables are concerned *)
Definition dull (o : rop) : Prop := match o with PSendRaw _ _ _ _ | PRecvRaw _ _ | PInIp _ _ | PFlush _ | PSendPkt _ _ _ | PRecvPkt _ _ | PInFrame _ _ _ => False | _ => True end.
Lemma same_effects w st o r : RGood st -> dull o -> effects w st o st r [].
Proof.
  intros G D. split; [exact G|]. split; [constructor|]. split; intros j t S K; exists t; (split; [exact S|]); destruct o; try contradiction; split; reflexivity.
Qed.
Lemma raw_put_effects w st o i t' r : RGood st -> dull o -> 0 <= i -> RI t' ->
  (forall t, raw_slot st i t -> kept_open o i -> r_used t' = true /\ r_rx t' = r_rx t /\ r_tx t' = r_tx t) -> effects w st o (put_raw st i t') r [].
Proof.
  intros G D I T H. split; [apply put_raw_good; assumption|]. split; [constructor|]. split; intros j t S K.
  - eexists. split; [apply raw_put_slot; [exact I|exact S|]|].
    + intros ->. apply (H t S K).
    + destruct (i =? j) eqn:E; [assert (i = j) by lia; subst j; destruct (H t S K) as (_ & A & B)|]; destruct o; try contradiction; first [split; assumption | split; reflexivity].
  - exists t. split; [exact S|]. destruct o; try contradiction; split; reflexivity.
Qed.
Lemma pkt_put_effects w st o i t' r : RGood st -> dull o -> 0 <= i -> PI t' ->
  (forall t, pkt_slot st i t -> pkept_open o i -> p_used t' = true /\ p_rx t' = p_rx t /\ p_tx t' = p_tx t) -> effects w st o (put_pkt st i t') r [].
Proof.
  intros G D I T H. split; [apply put_pkt_good; assumption|]. split; [constructor|]. split; intros j t S K.
  - exists t. split; [exact S|]. destruct o; try contradiction; split; reflexivity.
  - eexists. split; [apply pkt_put_slot; [exact I|exact S|]|].
    + intros ->. apply (H t S K).
    + destruct (i =? j) eqn:E; [assert (i = j) by lia; subst j; destruct (H t S K) as (_ & A & B)|]; destruct o; try contradiction; first [split; assumption | split; reflexivity].
Qed.
Lemma raw_ok_pos st i : raw_ok st i = true -> 0 <= i. Proof. intros H. apply raw_ok_slot in H. apply H. Qed.
Lemma pkt_ok_pos st i : pkt_ok st i = true -> 0 <= i. Proof. intros H. apply pkt_ok_slot in H. apply H. Qed.
Lemma raw_ok_used st i : raw_ok st i = true -> r_used (raw_at st i) = true. Proof. intros H. apply raw_ok_slot in H. apply H. Qed.
Lemma pkt_ok_used st i : pkt_ok st i = true -> p_used (pkt_at st i) = true. Proof. intros H. apply pkt_ok_slot in H. apply H. Qed.
Lemma raw_no_slot st i t : raw_ok st i = false -> raw_slot st i t -> False.
Proof. intros H S. assert (raw_ok st i = true) by (apply raw_ok_slot; rewrite (raw_slot_at _ _ _ S); exact S). congruence. Qed.
Lemma pkt_no_slot st i t : pkt_ok st i = false -> pkt_slot st i t -> False.
Proof. intros H S. assert (pkt_ok st i = true) by (apply pkt_ok_slot; rewrite (pkt_slot_at _ _ _ S); exact S). congruence. Qed.

Lemma rstep_effects w st o : rworld_ok w -> RGood st -> rop_in w st o -> exists st' r e, rstep w st o = Some (st', r, e) /\ effects w st o st' r e.
Proof.
  intros HW G HO. pose proof HW as (HU & HN). pose proof G as (G1 & G2 & G3 & G4). destruct o as [pr h|pr|i|i|i ip|i x pr|i ip|i o|i to b junk|i to b|i n|i n|i f|i f wild|o]; cbn [rstep rop_in] in *.
  - unfold open_raw. destruct (free_raw (t_raw st) 0) as [i|] eqn:E; [|eexists _, _, _; split; [reflexivity|]; apply same_effects; [exact G|exact I]].
    destruct (free_raw_spec _ _ _ E) as (B & u & N & U). eexists _, _, _. split; [reflexivity|]. apply raw_put_effects; [exact G|exact I|lia| |].
    + destruct (fq_con _ _ _ _ (fresh_fq RXBUF eq_refl ltac:(unfold DESC, RXBUF; lia))) as (QR & CR). destruct (fq_con _ _ _ _ (fresh_fq TXBUF eq_refl ltac:(unfold DESC, TXBUF; lia))) as (QT & CT).
      split; [exact QR|]. split; [cbn [r_rx]; rewrite CR; constructor|]. split; [exact QT|]. split; [cbn [r_tx]; rewrite CT; constructor|]. unfold addr32. cbn. lia.
    + intros t (_ & N2 & U2). rewrite Z.sub_0_r in N. congruence.
  - unfold open_pkt. destruct (free_pkt (t_pkt st) 0) as [i|] eqn:E; [|eexists _, _, _; split; [reflexivity|]; apply same_effects; [exact G|exact I]].
    destruct (free_pkt_spec _ _ _ E) as (B & u & N & U). eexists _, _, _. split; [reflexivity|]. apply pkt_put_effects; [exact G|exact I|lia| |].
    + destruct (fq_con _ _ _ _ (fresh_fq RXBUF eq_refl ltac:(unfold DESC, RXBUF; lia))) as (QR & CR). destruct (fq_con _ _ _ _ (fresh_fq TXBUF eq_refl ltac:(unfold DESC, TXBUF; lia))) as (QT & CT).
      split; [exact QR|]. split; [cbn [p_rx]; rewrite CR; constructor|]. split; [exact QT|]. split; [cbn [p_tx]; rewrite CT; constructor|]. pose proof (u16_port pr). cbn [p_bind p_if p_proto]. split; [lia|]. split; [lia|assumption].
    + intros t (_ & N2 & U2). rewrite Z.sub_0_r in N. congruence.
  - unfold close_raw. destruct (raw_ok st i) eqn:K; (eexists _, _, _; split; [reflexivity|]); [|apply same_effects; [exact G|exact I]].
    apply raw_put_effects; [exact G|exact I|eapply raw_ok_pos; exact K|apply RI0|]. intros t _ X. exfalso. apply X. reflexivity.
  - unfold close_pkt. destruct (pkt_ok st i) eqn:K; (eexists _, _, _; split; [reflexivity|]); [|apply same_effects; [exact G|exact I]].
    apply pkt_put_effects; [exact G|exact I|eapply pkt_ok_pos; exact K|apply PI0|]. intros t _ X. exfalso. apply X. reflexivity.
  - unfold bind_raw. destruct (if_for_local_ip w ip) as [ifx ok]. destruct (negb (ip =? 0) && negb ok); [eexists _, _, _; split; [reflexivity|]; apply same_effects; [exact G|exact I]|].
    destruct (raw_ok st i) eqn:K; cbn [negb]; (eexists _, _, _; split; [reflexivity|]); [|apply same_effects; [exact G|exact I]].
    pose proof (at_RI _ _ G K) as T. pose proof T as (X1 & X2 & X3 & X4 & (X5 & X6 & X7 & X8)). apply raw_put_effects; [exact G|exact I|eapply raw_ok_pos; exact K| |].
    + split; [exact X1|]. split; [exact X2|]. split; [exact X3|]. split; [exact X4|]. split; [exact HO|]. split; [apply raw_local_addr; assumption|]. split; [exact X7|apply u8_range].
    + intros t S _. rewrite (raw_slot_at _ _ _ S). split; [apply S|]. split; reflexivity.
  - unfold bind_pkt. destruct (pkt_ok st i) eqn:K; cbn [negb]; [|eexists _, _, _; split; [reflexivity|]; apply same_effects; [exact G|exact I]].
    destruct ((x <? 0) || (zlen (w_ifs w) <=? x)) eqn:C; (eexists _, _, _; split; [reflexivity|]); [apply same_effects; [exact G|exact I]|].
    pose proof (at_PI _ _ G K) as T. pose proof T as (X1 & X2 & X3 & X4 & (X5 & X6 & X7)). apply pkt_put_effects; [exact G|exact I|eapply pkt_ok_pos; exact K| |].
    + split; [exact X1|]. split; [exact X2|]. split; [exact X3|]. split; [exact X4|]. split; [cbn [p_bind]; lia|]. split; [apply u8_range|exact HO].
    + intros t S _. rewrite (pkt_slot_at _ _ _ S). split; [apply S|]. split; reflexivity.
  - unfold connect_raw. destruct (raw_ok st i) eqn:K; cbn [negb]; (eexists _, _, _; split; [reflexivity|]); [|apply same_effects; [exact G|exact I]].
    pose proof (at_RI _ _ G K) as T. pose proof T as (X1 & X2 & X3 & X4 & (X5 & X6 & X7 & X8)). apply raw_put_effects; [exact G|exact I|eapply raw_ok_pos; exact K| |].
    + apply RI_addr; [exact T| |exact HO|apply u8_range]. destruct (r_hdr (raw_at st i)); [exact X6|apply raw_local_addr; assumption].
    + intros t S _. rewrite (raw_slot_at _ _ _ S). split; [apply S|]. split; reflexivity.
  - unfold opt_raw. destruct (raw_ok st i) eqn:K; cbn [negb]; (eexists _, _, _; split; [reflexivity|]); [|apply same_effects; [exact G|exact I]].
    pose proof (at_RI _ _ G K) as T. apply raw_put_effects; [exact G|exact I|eapply raw_ok_pos; exact K| |].
    + destruct o; exact T.
    + intros t S _. rewrite (raw_slot_at _ _ _ S). destruct o; (split; [apply S|]; split; reflexivity).
  - destruct HO as (HB & HJ & HT & HF). unfold sendto_raw. destruct (raw_ok st i) eqn:K; cbn [negb obind].
    + pose proof (at_RI _ _ G K) as T. pose proof (proj1 (raw_ok_slot _ _) K) as S0. destruct S0 as (I0 & N0 & U0).
      destruct (send_raw_spec w (t_id st) (raw_at st i) to b junk HU T HB HJ HT) as (t' & id' & v & E & T' & SN); [intros HH; exact (HF _ N0 I0 HH)|]. rewrite E. cbn [obind].
      eexists _, _, _. split; [reflexivity|]. split; [exact (put_raw_good _ _ _ G T')|]. split; [constructor|]. split; intros j t S _.
      * pose proof (raw_put_slot st i t' j t I0 S) as X. eexists. split; [apply X; intros ->; destruct SN as (X1 & _); rewrite X1; exact U0|]. cbn [raw_eff].
        destruct (i =? j) eqn:EJ; [|reflexivity]. assert (i = j) by lia. subst j. exists v. split; [reflexivity|]. rewrite <- (raw_slot_at _ _ _ S). exact SN.
      * exists t. split; [exact S|]. split; reflexivity.
    + eexists _, _, _. split; [reflexivity|]. split; [exact G|]. split; [constructor|]. split; intros j t S _; exists t; (split; [exact S|]); [|split; reflexivity].
      cbn [raw_eff]. destruct (i =? j) eqn:EJ; [|reflexivity]. assert (i = j) by lia. subst j. exfalso. eapply raw_no_slot; eassumption.
  - destruct HO as (HB & HT). unfold sendto_pkt. destruct (pkt_ok st i) eqn:K; cbn [negb obind].
    + pose proof (at_PI _ _ G K) as T. destruct (send_pkt_spec w (pkt_at st i) to b HW T HB HT) as (t' & v & E & T' & SN). rewrite E. cbn [obind]. pose proof (pkt_ok_pos _ _ K) as I0.
      eexists _, _, _. split; [reflexivity|]. split; [exact (put_pkt_good _ _ _ G T')|]. split; [constructor|]. split; intros j t S _.
      * exists t. split; [exact S|]. split; reflexivity.
      * pose proof (pkt_put_slot st i t' j t I0 S) as X. eexists. split; [apply X; intros ->; destruct SN as ((X1 & _) & _); rewrite X1; apply pkt_ok_used; exact K|]. cbn [pkt_eff].
        destruct (i =? j) eqn:EJ; [|reflexivity]. assert (i = j) by lia. subst j. exists v. split; [reflexivity|]. rewrite <- (pkt_slot_at _ _ _ S). exact SN.
    + eexists _, _, _. split; [reflexivity|]. split; [exact G|]. split; [constructor|]. split; intros j t S _; exists t; (split; [exact S|]); [split; reflexivity|].
      cbn [pkt_eff]. destruct (i =? j) eqn:EJ; [|reflexivity]. assert (i = j) by lia. subst j. exfalso. eapply pkt_no_slot; eassumption.
  - unfold recvfrom_raw. destruct (raw_ok st i) eqn:K; cbn [negb obind].
    + pose proof (at_RI _ _ G K) as T. destruct (recv_raw_spec (raw_at st i) n T) as (t' & v & E & T' & RD). rewrite E. cbn [obind]. pose proof (raw_ok_pos _ _ K) as I0.
      eexists _, _, _. split; [reflexivity|]. split; [exact (put_raw_good _ _ _ G T')|]. split; [constructor|]. split; intros j t S _.
      * pose proof (raw_put_slot st i t' j t I0 S) as X. eexists. split; [apply X; intros ->; destruct RD as ((X1 & _) & _); rewrite X1; apply raw_ok_used; exact K|]. cbn [raw_eff].
        destruct (i =? j) eqn:EJ; [|reflexivity]. assert (i = j) by lia. subst j. rewrite <- (raw_slot_at _ _ _ S). exact RD.
      * exists t. split; [exact S|]. split; reflexivity.
    + eexists _, _, _. split; [reflexivity|]. split; [exact G|]. split; [constructor|]. split; intros j t S _; exists t; (split; [exact S|]); [|split; reflexivity].
      cbn [raw_eff]. destruct (i =? j) eqn:EJ; [|reflexivity]. assert (i = j) by lia. subst j. exfalso. eapply raw_no_slot; eassumption.
  - unfold recvfrom_pkt. destruct (pkt_ok st i) eqn:K; cbn [negb obind].
    + pose proof (at_PI _ _ G K) as T. destruct (recv_pkt_spec (pkt_at st i) n T) as (t' & v & E & T' & RD). rewrite E. cbn [obind]. pose proof (pkt_ok_pos _ _ K) as I0.
      eexists _, _, _. split; [reflexivity|]. split; [exact (put_pkt_good _ _ _ G T')|]. split; [constructor|]. split; intros j t S _.
      * exists t. split; [exact S|]. split; reflexivity.
      * pose proof (pkt_put_slot st i t' j t I0 S) as X. eexists. split; [apply X; intros ->; destruct RD as ((X1 & _) & _); rewrite X1; apply pkt_ok_used; exact K|]. cbn [pkt_eff].
        destruct (i =? j) eqn:EJ; [|reflexivity]. assert (i = j) by lia. subst j. rewrite <- (pkt_slot_at _ _ _ S). exact RD.
    + eexists _, _, _. split; [reflexivity|]. split; [exact G|]. split; [constructor|]. split; intros j t S _; exists t; (split; [exact S|]); [split; reflexivity|].
      cbn [pkt_eff]. destruct (i =? j) eqn:EJ; [|reflexivity]. assert (i = j) by lia. subst j. exfalso. eapply pkt_no_slot; eassumption.
  - destruct HO as (FO & HI). destruct (raw_try_spec st i f ltac:(lia) FO G) as (st' & E & G' & EP & _ & F2). rewrite E. cbn [obind]. eexists _, _, _. split; [reflexivity|]. split; [exact G'|]. split; [constructor|].
    split; intros j t (J & N & U) _.
    + destruct (F2_nth _ _ _ F2 _ _ N) as (t' & N' & GT). exists t'. split; [|exact GT]. split; [exact J|]. split; [exact N'|]. destruct GT as [(_ & _ & (S & _))|(_ & ->)]; [|exact U]. destruct S as (S & _). congruence.
    + exists t. split; [split; [exact J|]; rewrite EP; split; assumption|]. split; reflexivity.
  - destruct HO as (FO & FL & HI). destruct (pkt_try_spec st i f wild ltac:(lia) FO FL G) as (st' & E & G' & EP & _ & F2). rewrite E. cbn [obind]. eexists _, _, _. split; [reflexivity|]. split; [exact G'|]. split; [constructor|].
    split; intros j t (J & N & U) _.
    + exists t. split; [split; [exact J|]; rewrite EP; split; assumption|]. split; reflexivity.
    + destruct (F2_nth _ _ _ F2 _ _ N) as (t' & N' & GT). exists t'. split; [|exact GT]. split; [exact J|]. split; [exact N'|]. destruct GT as [(_ & _ & (S & _))|(_ & ->)]; [|exact U]. destruct S as (S & _). congruence.
  - unfold rflush. destruct (flush_raws_spec w o HW HO (t_raw st) 0 0%nat G2) as (l1 & k1 & e1 & E1 & F1 & L1 & A1 & A2 & A3 & A4). rewrite E1. cbn [obind].
    destruct (flush_pkts_spec w o (t_pkt st) 0 k1 G4) as (l2 & k2 & e2 & E2 & F2 & L2 & B1 & B2 & B3 & B4). rewrite E2. cbn [obind].
    eexists _, _, _. split; [reflexivity|]. split; [split; [cbn [t_raw]; lia|]; split; [exact F1|]; split; [cbn [t_pkt]; lia|exact F2]|]. split; [apply Forall_app; split; assumption|]. split; intros j t (J & N & U) _.
    + destruct (A4 _ _ N) as (t' & N' & FU). rewrite Z2Nat.id in FU by lia. rewrite Z.add_0_l in FU. exists t'. split; [split; [exact J|]; split; [exact N'|]; destruct FU as ((X & _) & _); congruence|].
      cbn [raw_eff]. unfold raw_flushed in *. rewrite raw_out_app, B2, app_nil_r. exact FU.
    + destruct (B4 _ _ N) as (t' & N' & FU). rewrite Z2Nat.id in FU by lia. rewrite Z.add_0_l in FU. exists t'. split; [split; [exact J|]; split; [exact N'|]; destruct FU as ((X & _) & _); congruence|].
      cbn [pkt_eff]. unfold pkt_flushed in *. rewrite pkt_out_app, A2. exact FU.
Qed.
