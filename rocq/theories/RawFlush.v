(** Raw and packet sockets: the transmit flush. *)
From Verif Require Import Base ListUtil Checksum ChecksumProps Route RouteProps Arp HttpUrl Fifo FifoProofs FifoPush FifoMore FifoHist FifoProps Forward ForwardSpec ForwardProofs ForwardStep Udp UdpFifo UdpSpec UdpFrames UdpInv UdpOps UdpFlush Raw RawSpec RawInv RawSend.

(** ** The head of a queue *)
Definition hd_at (s : Z) (f : fifo) (pos : Z) (d : list Z) (l : list (list Z)) : Prop :=
  exists x es, WF f (x :: es) /\ f_size f = s /\ e_pos x = pos /\ e_data x = d /\ map e_data es = l.
Lemma peek_hd u s f q : fq u s f q -> exists f' p, fifo_peek f = (f', p) /\
  ((q = [] /\ p = None /\ fq u s f' []) \/ exists pos d l, u = true /\ q = d :: l /\ p = Some pos /\ hd_at s f' pos d l).
Proof.
  destruct u.
  - intros [(es & W & EQ) HS]. subst q. destruct (fifo_peek_spec _ _ W) as (f' & EP & W' & Sz & Dt & _).
    eexists f', _. split; [exact EP|]. destruct es as [|x es]; [left; split; [reflexivity|]; split; [reflexivity|]; split; [exists []; auto|congruence]|right].
    exists (e_pos x), (e_data x), (map e_data es). split; [reflexivity|]. split; [reflexivity|]. split; [reflexivity|]. exists x, es. split; [exact W'|]. split; [congruence|auto].
  - intros [-> ->]. exists (fifo_init [] 0), None. split; [reflexivity|]. left. split; [reflexivity|]. split; [reflexivity|]. split; reflexivity.
Qed.
Lemma hd_load s f pos d l : hd_at s f pos d l -> exists fl tm, load_entry f pos = Some {| en_flags := fl; en_time := tm; en_data := d |}.
Proof.
  intros (x & es & W & _ & <- & <- & _). exists (e_flags x), (e_time x). exact (load_entry_spec _ _ x W (or_introl eq_refl)).
Qed.
Lemma hd_update s f pos d l fl tm d2 : hd_at s f pos d l -> zlen d2 = zlen d -> exists f', fifo_update f pos fl tm d2 = Some f' /\ hd_at s f' pos d2 l.
Proof.
  intros (x & es & W & S & <- & <- & M) L. destruct (fifo_update_spec f [] x es fl tm d2 W) as (f3 & U3 & W3 & S3 & _).
  - pose proof W as (_ & _ & MM). inversion MM as [|? ? (M1 & M2 & M3 & M4) MR]. subst. unfold e_len in *. exact L.
  - cbn [app] in W3. exists f3. split; [exact U3|]. eexists _, es. split; [exact W3|]. split; [congruence|]. split; [reflexivity|]. split; [reflexivity|exact M].
Qed.
Lemma hd_pop s f pos d l : hd_at s f pos d l -> exists f', fifo_pop f = Some (f', Some pos) /\ fq true s f' l.
Proof.
  intros (x & es & W & S & <- & <- & <-). destruct (fifo_pop_cons _ _ _ W) as (f2 & P2 & W2 & _ & S2 & _). exists f2. split; [exact P2|]. split; [exists es; auto|congruence].
Qed.
Lemma hd_fq s f pos d l : hd_at s f pos d l -> fq true s f (d :: l).
Proof. intros (x & es & W & S & <- & <- & <-). split; [exists (x :: es); auto|exact S]. Qed.

(** ** Frames *)
Lemma same_packet_refl f : same_packet f f. Proof. split; reflexivity. Qed.
Lemma same_packet_trans a b c : same_packet a b -> same_packet b c -> same_packet a c.
Proof. intros [A1 A2] [B1 B2]. split; [congruence|]. intros k K1 K2 K3. rewrite A2 by assumption. apply B2; assumption. Qed.
Lemma same_packet_all l : Forall2 same_packet l l.
Proof. apply F2_refl. intros. apply same_packet_refl. Qed.
Lemma same_dst g f : same_packet g f -> dst g = dst f.
Proof. intros [_ A]. apply addr_ext. intros j J. apply A; lia. Qed.
Lemma same_ihl g f : same_packet g f -> ihl g = ihl f.
Proof. intros [_ A]. unfold ihl. rewrite A by lia. reflexivity. Qed.
Lemma same_tx_ok g f : same_packet g f -> Forall byte g -> raw_tx_ok f -> raw_tx_ok g.
Proof. intros S B (_ & L & D & I). pose proof S as [SL _]. split; [exact B|]. split; [lia|]. rewrite (same_dst _ _ S), (same_ihl _ _ S). split; [exact D|lia]. Qed.
Lemma rlink_spec w ifx f mac : world_ok w -> Forall byte f -> 14 <= zlen f -> zlen mac = 6 -> Forall byte mac ->
  zlen (link w ifx f mac) = zlen f /\ Forall byte (link w ifx f mac) /\ (forall k, 14 <= k -> zget (link w ifx f mac) k = zget f k) /\
  (forall x, nth_error (w_ifs w) (Z.to_nat ifx) = Some x -> i_noneth x = false -> part (link w ifx f mac) 0 6 = mac /\ part (link w ifx f mac) 6 6 = i_mac x /\ word (link w ifx f mac) 12 = 2048).
Proof.
  intros (W1 & _) TB TL LM BM. unfold link. destruct (nth_error (w_ifs w) (Z.to_nat ifx)) as [x|] eqn:N.
  2:{ split; [reflexivity|]. split; [assumption|]. split; [reflexivity|]. discriminate. }
  assert (XO : iface_ok x) by (rewrite Forall_forall in W1; apply W1; eapply nth_error_In; exact N). destruct XO as (X1 & X2 & _).
  destruct (i_noneth x) eqn:NE.
  { split; [reflexivity|]. split; [assumption|]. split; [reflexivity|]. intros y Hy. injection Hy as <-. congruence. }
  set (e := mac ++ i_mac x ++ be16 2048). assert (LE : zlen e = 14) by (unfold e; rewrite !zlen_app, LM, X1; reflexivity).
  replace (mac ++ i_mac x ++ be16 2048 ++ skipn 14 f) with (e ++ skipn 14 f) by (unfold e; rewrite <- !app_assoc; reflexivity).
  assert (LS : zlen (skipn 14 f) = zlen f - 14) by (unfold zlen in *; rewrite skipn_length; lia).
  assert (BE : Forall byte e) by (unfold e; repeat apply Forall_app2; [assumption|assumption|apply bytes_lit; reflexivity]).
  split; [rewrite zlen_app; lia|]. split; [apply Forall_app2; [assumption|apply Forall_skipn; assumption]|].
  split. { intros k K. rewrite zget_app2 by lia. rewrite skipn_zget by lia. f_equal. lia. }
  intros y Hy _. injection Hy as <-. split; [|split].
  - rewrite part_app_l by lia. unfold e. rewrite part_app_l by lia. apply part_all. lia.
  - rewrite part_app_l by lia. unfold e. rewrite part_app_r by lia. rewrite LM. rewrite part_app_l by lia. apply part_all. lia.
  - transitivity (word (be16 2048) 0); [|reflexivity]. apply word_ext. intros j J. rewrite zget_app1 by lia. unfold e. rewrite zget_app2 by lia. rewrite zget_app2 by lia. f_equal. lia.
Qed.
Definition omacs (o : oracle) : Prop := forall k m, o_mac o k = Some m -> zlen m = 6 /\ Forall byte m.
Definition rmac (w : world) (o : oracle) (k : nat) (ifx nh : Z) : option (list Z) :=
  if is_loopback_if (w_lb w) ifx then Some (match nth_error (w_ifs w) (Z.to_nat ifx) with Some x => i_mac x | None => repeat 0 6 end)
  else if nh =? 4294967295 then Some (repeat 255 6) else o_mac o k.
Lemma rmac_spec w o k ifx nh mac : world_ok w -> omacs o -> rmac w o k ifx nh = Some mac -> zlen mac = 6 /\ Forall byte mac /\
  forall x, nth_error (w_ifs w) (Z.to_nat ifx) = Some x -> i_noneth x = false -> (is_loop w ifx /\ mac = i_mac x) \/ (nh = 4294967295 /\ mac = repeat 255 6) \/ exists k, o_mac o k = Some mac.
Proof.
  intros (W1 & _) MO. unfold rmac. destruct (is_loopback_if (w_lb w) ifx) eqn:LB.
  - intros E. injection E as <-. destruct (nth_error (w_ifs w) (Z.to_nat ifx)) as [x|] eqn:N.
    + assert (XO : iface_ok x) by (rewrite Forall_forall in W1; apply W1; eapply nth_error_In; exact N). destruct XO as (X1 & X2 & _).
      split; [exact X1|]. split; [exact X2|]. intros y Hy _. injection Hy as <-. left. split; [apply is_loop_iff; exact LB|reflexivity].
    + split; [reflexivity|]. split; [apply bytes_lit; reflexivity|]. discriminate.
  - destruct (nh =? 4294967295) eqn:NB.
    + intros E. injection E as <-. split; [reflexivity|]. split; [apply bytes_lit; reflexivity|]. intros; right; left; split; [lia|reflexivity].
    + intros E. destruct (MO _ _ E). split; [assumption|]. split; [assumption|]. eauto.
Qed.

(** ** Raw sockets *)
(** everything the flush leaves alone: all but the transmit queue and the interface *)
Definition rcalm (t t' : rsock) : Prop :=
  r_used t' = r_used t /\ r_proto t' = r_proto t /\ r_hdr t' = r_hdr t /\ r_dont t' = r_dont t /\ r_in t' = r_in t /\
  r_bound t' = r_bound t /\ r_local t' = r_local t /\ r_remote t' = r_remote t /\ r_rx t' = r_rx t /\ r_ttl t' = r_ttl t.
Lemma rcalm_trans a b c : rcalm a b -> rcalm b c -> rcalm a c.
Proof. unfold rcalm. intros (A1 & A2 & A3 & A4 & A5 & A6 & A7 & A8 & A9 & A10) (B1 & B2 & B3 & B4 & B5 & B6 & B7 & B8 & B9 & B10). repeat (split; [congruence|]). congruence. Qed.
Definition raw_sane (w : world) (o : oracle) (t : rsock) (i : Z) (p : list (Z * list Z)) (e : list rev) : Prop :=
  raw_out i e = p /\ (forall j, j <> i -> raw_out j e = []) /\ (forall j, pkt_out j e = []) /\ Forall (raw_wire w) e /\ Forall (fun x => raw_frame w o t (fst x) (snd x)) p.
Lemma flush_raw_spec w i o : rworld_ok w -> omacs o -> forall fuel t k, r_used t = true -> RI t -> (length (contents (r_tx t)) < fuel)%nat ->
  exists t' k' e, flush_raw fuel w i t o k = Some (t', k', e) /\ RI t' /\ rcalm t t' /\
    exists p, raw_sane w o t i p e /\ Forall2 same_packet (map snd p ++ contents (r_tx t')) (contents (r_tx t)) /\ (clear_way w o -> contents (r_tx t') = []).
Proof.
  intros ((HW & _) & _) MO. induction fuel as [|fuel IH]; intros t k U H LF; [lia|]. cbn [flush_raw]. pose proof H as (Q1 & Q2 & Q3 & Q4 & Q5).
  destruct (peek_hd _ _ _ _ Q3) as (q & p & EP & C). rewrite EP. destruct C as [(CE & -> & F)|(pos & f & l & _ & CE & -> & HA)].
  { eexists _, _, _. split; [reflexivity|]. split; [eapply RI_tx; [exact H|exact F|constructor]|]. split; [unfold rcalm; cbn; auto 20|].
    exists []. split; [split; [reflexivity|]; split; [reflexivity|]; split; [reflexivity|]; split; constructor|]. destruct (fq_con _ _ _ _ F) as (_ & CF). cbn [rset_q r_tx map app]. rewrite CF, CE. split; [constructor|reflexivity]. }
  rewrite CE in Q4, LF |- *. inversion Q4 as [|? ? TX Q4l]; subst x l0. destruct (hd_load _ _ _ _ _ HA) as (fl & tm & EL). rewrite EL. cbn [obind en_data en_flags en_time].
  rewrite rd32_addr. fold (dst f). pose proof TX as (TB & TL & TD & TI). replace (dst f =? 0) with false by lia.
  change (r_if (rset_q (r_rx t) q t)) with (r_if t). change (r_dont (rset_q (r_rx t) q t)) with (r_dont t). change (r_bound (rset_q (r_rx t) q t)) with (r_bound t).
  set (ifx0 := if zlen (w_ifs w) <=? r_if t then raw_route w (r_bound t) (dst f) (r_dont t) else r_if t).
  destruct (if r_dont t then (ifx0, dst f) else match route_lookup (w_lb w) (w_confs w) (w_routes w) (dst f) with Some x => x | None => (ifx0, dst f) end) as [ifx nh] eqn:ER.
  set (t1 := rset_if (u8 ifx) (rset_q (r_rx t) q t)).
  assert (R1 : RI t1). { assert (X : RI (rset_q (r_rx t) q t)) by (eapply RI_tx; [exact H|rewrite U; eapply hd_fq; exact HA|exact Q4]). destruct X as (X1 & X2 & X3 & X4 & (X5 & X6 & X7 & X8)). split; [exact X1|]. split; [exact X2|]. split; [exact X3|]. split; [exact X4|]. split; [exact X5|]. split; [exact X6|]. split; [exact X7|]. apply u8_range. }
  assert (C1 : rcalm t t1) by (unfold rcalm, t1; cbn; auto 20).
  fold (rmac w o k ifx nh). destruct (rmac w o k ifx nh) as [mac|] eqn:EM.
  2:{ eexists _, _, _. split; [reflexivity|]. split; [exact R1|]. split; [exact C1|]. exists [].
      split; [split; [reflexivity|]; split; [reflexivity|]; split; [reflexivity|]; split; [constructor; [exact I|constructor]|constructor]|].
      cbn [map app]. unfold t1. cbn [rset_if rset_q r_tx]. destruct (fq_con _ _ _ _ (hd_fq _ _ _ _ _ HA)) as (_ & ->). split; [apply same_packet_all|]. intros (CW & _). exfalso. unfold rmac in EM. destruct (is_loopback_if _ _); [discriminate|]. destruct (nh =? _); [discriminate|]. exact (CW _ EM). }
  destruct (rmac_spec w o k ifx nh mac HW MO EM) as (LM & BM & OM). change (r_hdr t1) with (r_hdr t).
  assert (exists g, (if r_hdr t then Some f else set_ipck f (skipn (Z.to_nat (pos + DESC + zlen f)) (f_data q))) = Some g /\ same_packet g f /\ Forall byte g /\
     (r_hdr t = false -> zget g 14 / 16 = 4 -> 20 <= ihl g -> ones_complement_valid (part g 14 (ihl g)))) as (g & EG & SG & BG & VG).
  { destruct (r_hdr t); [exists f; split; [reflexivity|]; split; [apply same_packet_refl|]; split; [assumption|discriminate]|].
    destruct (set_ipck_spec f (skipn (Z.to_nat (pos + DESC + zlen f)) (f_data q)) TB) as (g & E & L & B & Z & V); [lia|lia|]. exists g. split; [exact E|].
    assert (SG : same_packet g f) by (split; [exact L|intros; apply Z; lia]). split; [exact SG|]. split; [exact B|]. intros _ V4 V20. apply V; [rewrite <- Z by lia; exact V4|rewrite <- (same_ihl _ _ SG); exact V20]. }
  rewrite EG. cbn [obind]. pose proof SG as (LG & _). destruct (hd_update _ _ _ _ _ fl tm g HA LG) as (q2 & E2 & HA2). rewrite E2. cbn [obind].
  pose proof (same_tx_ok _ _ SG BG TX) as TXG.
  assert (MK : forall q3 l3, fq true TXBUF q3 l3 -> Forall raw_tx_ok l3 -> RI (rset_q (r_rx t1) q3 t1) /\ rcalm t (rset_q (r_rx t1) q3 t1)).
  { intros q3 l3 F A. split; [eapply RI_tx; [exact R1|change (r_used t1) with (r_used t); rewrite U; exact F|exact A]|]. unfold rcalm, t1. cbn. auto 20. }
  destruct (w_fsend w ifx g) eqn:FS.
  { pose proof (hd_fq _ _ _ _ _ HA2) as F2. destruct (MK _ _ F2 (Forall_cons _ TXG Q4l)) as (A & B). eexists _, _, _. split; [reflexivity|]. split; [exact A|]. split; [exact B|]. exists [].
    split; [split; [reflexivity|]; split; [reflexivity|]; split; [reflexivity|]; split; constructor|]. cbn [map app rset_q r_tx]. destruct (fq_con _ _ _ _ F2) as (_ & ->).
    split; [constructor; [exact SG|apply same_packet_all]|]. intros (_ & CW). rewrite CW in FS. discriminate. }
  fold (link w ifx g mac). destruct (rlink_spec w ifx g mac HW BG ltac:(lia) LM BM) as (LL & BL & ZL & GL). set (g2 := link w ifx g mac) in *.
  destruct (hd_update _ _ _ _ _ fl tm g2 HA2 LL) as (q3 & E3 & HA3). rewrite E3. cbn [obind].
  destruct (hd_pop _ _ _ _ _ HA3) as (q4 & E4 & F4). rewrite E4. cbn [obind]. destruct (MK _ _ F4 Q4l) as (A & B). destruct (fq_con _ _ _ _ F4) as (_ & C4).
  destruct (IH (rset_q (r_rx t1) q4 t1) (S k)) as (t' & k' & e & EF & R' & C' & p' & SP & SM & CW); [exact U|exact A|cbn [rset_q r_tx]; rewrite C4; cbn [length] in LF; lia|].
  rewrite EF. cbn [obind]. eexists _, _, _. split; [reflexivity|]. split; [exact R'|]. split; [eapply rcalm_trans; [exact B|exact C']|].
  exists ((ifx, g2) :: p'). cbn [rset_q r_tx] in SM. rewrite C4 in SM. destruct SP as (S1 & S2 & S3 & S4 & S5). assert (U8 : forall z, 0 <= z < 256 -> u8 z = z) by (intros z Hz; unfold u8; apply Z.mod_small; lia).
  assert (S5' : Forall (fun x => raw_frame w o t (fst x) (snd x)) p').
  { eapply Forall_impl; [|exact S5]. intros [i0 g0] (X1 & nh0 & X2 & X3). cbn [fst snd] in *. split; [exact X1|]. exists nh0. split; [|exact X3]. unfold raw_leaves in *. cbn [rset_q rset_if t1 r_dont r_if r_rx r_tx] in X2.
    destruct (r_dont t) eqn:DT; [|exact X2]. destruct X2 as (X2 & X4). split; [exact X2|]. intros LT. injection ER as EI EN. unfold ifx0 in EI. replace (zlen (w_ifs w) <=? r_if t) with false in EI by lia.
    subst ifx. rewrite U8 in X4 by (apply Q5). exact (X4 LT). }
  clear S5. rename S5' into S5.
  assert (S2G : same_packet g2 f). { eapply same_packet_trans; [|exact SG]. split; [exact LL|]. intros; apply ZL; lia. }
  split; [|split; [cbn [map snd app]; constructor; [exact S2G|exact SM]|exact CW]].
  assert (FR : raw_frame w o t ifx g2).
  { split.
    - intros HH V4 V20. assert (I2 : ihl g2 = ihl g) by (unfold ihl; rewrite ZL by lia; reflexivity). rewrite I2 in *. rewrite ZL in V4 by lia.
      replace (part g2 14 (ihl g)) with (part g 14 (ihl g)); [apply VG; assumption|]. pose proof (same_ihl _ _ SG). apply zget_ext; [rewrite !zlen_part by lia; reflexivity|]. intros z Hz. rewrite zlen_part in Hz by lia. rewrite !zget_part by lia. symmetry. apply ZL. lia.
    - exists nh. split.
      { assert (DG : dst g2 = dst f) by (unfold dst; apply addr_ext; intros jj J; destruct S2G as (_ & S2G); apply S2G; lia). rewrite DG. unfold raw_leaves. destruct (r_dont t).
        - injection ER as EI EN. split; [congruence|]. intros LT. unfold ifx0 in EI. replace (zlen (w_ifs w) <=? r_if t) with false in EI by lia. congruence.
        - destruct (route_lookup _ _ _ _); congruence. }
      intros x N NE. destruct (GL x N NE) as (G1 & G2 & G3). split; [exact G2|]. split; [exact G3|]. rewrite G1. exact (OM x N NE). }
  unfold taken. destruct (nth_error (w_ifs w) (Z.to_nat ifx)) as [x|] eqn:N; [destruct (negb (w_mtu w ifx <? zlen g2) && o_drv o k) eqn:TK|].
  - split; [cbn [raw_out]; rewrite Z.eqb_refl; congruence|]. split; [intros j J; cbn [raw_out]; replace (i =? j) with false by lia; apply S2; exact J|]. split; [exact S3|]. split; [constructor; [|exact S4]; cbn [raw_wire]; split; [eauto|lia]|constructor; [exact FR|exact S5]].
  - split; [cbn [raw_out]; rewrite Z.eqb_refl; congruence|]. split; [intros j J; cbn [raw_out]; replace (i =? j) with false by lia; apply S2; exact J|]. split; [exact S3|]. split; [constructor; [exact I|exact S4]|constructor; [exact FR|exact S5]].
  - split; [cbn [raw_out]; rewrite Z.eqb_refl; congruence|]. split; [intros j J; cbn [raw_out]; replace (i =? j) with false by lia; apply S2; exact J|]. split; [exact S3|]. split; [constructor; [exact I|exact S4]|constructor; [exact FR|exact S5]].
Qed.

(** ** Packet sockets *)
(** the interface the flush uses *)
Definition pkt_if (w : world) (t : psock) : Z := if zlen (w_ifs w) <=? p_if t then 0 else p_if t.
Lemma flush_pkt_spec w i o : forall fuel t k, p_used t = true -> PI t -> (length (contents (p_tx t)) < fuel)%nat ->
  exists t' k' e, flush_pkt fuel w i t o k = Some (t', k', e) /\ PI t' /\ pkt_same t t' /\ p_if t' = p_if t /\ p_rx t' = p_rx t /\ contents (p_tx t') = [] /\
    pkt_out i e = map (fun f => (pkt_if w t, f)) (contents (p_tx t)) /\ (forall j, j <> i -> pkt_out j e = []) /\ (forall j, raw_out j e = []) /\ Forall (raw_wire w) e.
Proof.
  induction fuel as [|fuel IH]; intros t k U H LF; [lia|]. cbn [flush_pkt]. pose proof H as (Q1 & Q2 & Q3 & Q4 & Q5).
  destruct (peek_hd _ _ _ _ Q3) as (q & p & EP & C). rewrite EP. destruct C as [(CE & -> & F)|(pos & f & l & _ & CE & -> & HA)].
  { eexists _, _, _. split; [reflexivity|]. split; [eapply PI_tx; [exact H|exact F|constructor]|]. split; [unfold pkt_same; auto|]. split; [reflexivity|]. split; [reflexivity|].
    destruct (fq_con _ _ _ _ F) as (_ & CF). cbn [pset_q p_tx]. rewrite CE. split; [exact CF|]. split; [reflexivity|]. split; [reflexivity|]. split; [reflexivity|constructor]. }
  rewrite CE in Q4, LF |- *. inversion Q4 as [|? ? TX Q4l]; subst x l0. destruct (hd_load _ _ _ _ _ HA) as (fl & tm & EL). rewrite EL. cbn [obind en_data en_flags en_time].
  destruct (hd_pop _ _ _ _ _ HA) as (q4 & E4 & F4). rewrite E4. cbn [obind]. change (p_if (pset_q (p_rx t) q t)) with (p_if t). change (p_rx (pset_q (p_rx t) q t)) with (p_rx t). fold (pkt_if w t).
  set (t1 := pset_q (p_rx t) q4 (pset_q (p_rx t) q t)). destruct (fq_con _ _ _ _ F4) as (_ & C4).
  assert (R1 : PI t1) by (eapply PI_tx with (t := t) (q := q4); [exact H|rewrite U; exact F4|exact Q4l]).
  destruct (IH t1 (S k)) as (t' & k' & e & EF & R' & S' & I' & X' & CE' & P1 & P2 & P3 & P4); [exact U|exact R1|unfold t1; cbn [pset_q p_tx]; rewrite C4; cbn [length] in LF; lia|].
  rewrite EF. cbn [obind]. eexists _, _, _. split; [reflexivity|]. split; [exact R'|]. split; [exact S'|]. split; [exact I'|]. split; [exact X'|]. split; [exact CE'|].
  assert (CT : contents (p_tx t1) = l) by exact C4. rewrite CT in P1. change (pkt_if w t1) with (pkt_if w t) in P1. set (ifx := pkt_if w t) in *.
  assert (OUT : forall ev, (ev = VetoPkt i ifx f \/ (ev = TxPkt i ifx f /\ raw_wire w ev) \/ ev = LostPkt i ifx f) ->
    pkt_out i (ev :: e) = map (fun f => (ifx, f)) (f :: l) /\ (forall j, j <> i -> pkt_out j (ev :: e) = []) /\ (forall j, raw_out j (ev :: e) = []) /\ Forall (raw_wire w) (ev :: e)).
  { intros ev E. split; [|split; [|split]].
    - destruct E as [-> |[(-> & _)| ->]]; cbn [pkt_out]; rewrite Z.eqb_refl, P1; reflexivity.
    - intros j J. destruct E as [-> |[(-> & _)| ->]]; cbn [pkt_out]; replace (i =? j) with false by lia; apply P2; exact J.
    - intros j. destruct E as [-> |[(-> & _)| ->]]; cbn [raw_out]; apply P3.
    - constructor; [|exact P4]. destruct E as [-> |[(_ & W)| ->]]; [exact I|exact W|exact I]. }
  apply OUT. destruct (w_fsend w ifx f); [left; reflexivity|right]. unfold taken. destruct (nth_error (w_ifs w) (Z.to_nat ifx)) as [x|] eqn:N; [|right; reflexivity].
  destruct (negb (w_mtu w ifx <? zlen f) && o_drv o k) eqn:TK; [left|right; reflexivity]. split; [reflexivity|]. cbn [raw_wire]. split; [eauto|lia].
Qed.
