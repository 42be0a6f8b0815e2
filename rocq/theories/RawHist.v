(** Raw and packet sockets over whole histories. *)
From Verif Require Import Base ListUtil Checksum ChecksumProps Route RouteProps Arp HttpUrl Fifo Forward ForwardSpec ForwardProofs ForwardStep Udp UdpFifo UdpSpec UdpFrames UdpInv UdpOps UdpFlush UdpHist Raw RawSpec RawInv RawSend RawFlush RawStep.

Lemma rstep_good w st o st' r e : rworld_ok w -> RGood st -> rop_in w st o -> rstep w st o = Some (st', r, e) -> effects w st o st' r e.
Proof. intros HW G HO E. destruct (rstep_effects w st o HW G HO) as (s2 & r2 & e2 & E2 & X). rewrite E in E2. injection E2 as <- <- <-. exact X. Qed.
Lemma rtrace_good st tr st' : rtrace st tr st' -> RGood st -> RGood st'.
Proof. induction 1 as [|w st o r e st1 tr st2 HW HO E T IH]; [auto|]. intros G. apply IH. apply (rstep_good _ _ _ _ _ _ HW G HO E). Qed.
Lemma rreached_good st : rreached st -> RGood st.
Proof. intros (tr & T). eapply rtrace_good; [exact T|apply RGood0]. Qed.
Definition did_ok (d : rdid) : Prop := rworld_ok (e_w d) /\ rop_in (e_w d) (e_st d) (e_o d) /\ RGood (e_st d) /\ rstep (e_w d) (e_st d) (e_o d) = Some (e_st' d, e_r d, e_e d).
Lemma did_effects d : did_ok d -> effects (e_w d) (e_st d) (e_o d) (e_st' d) (e_r d) (e_e d).
Proof. intros (A & B & C & D). eapply rstep_good; eassumption. Qed.

(** What goes in comes out, in order, possibly with losses. *)
Lemma flow {S A B} (sl : rst -> S -> Prop) (q : S -> list A) (g : A -> B) (out : rdid -> list B) (inn : rdid -> list A -> Prop) (K R : rdid -> Prop) :
  (forall d t, did_ok d -> sl (e_st d) t -> K d -> exists t' new, sl (e_st' d) t' /\ inn d new /\
     subseq (out d ++ map g (q t')) (map g (q t ++ new)) /\ (R d -> out d ++ map g (q t') = map g (q t ++ new))) ->
  forall tr st st' t, RGood st -> rtrace st tr st' -> sl st t -> Forall K tr ->
  exists t' arr, sl st' t' /\ gathers inn tr arr /\ subseq (concat (map out tr) ++ map g (q t')) (map g (q t ++ arr)) /\
    (Forall R tr -> concat (map out tr) ++ map g (q t') = map g (q t ++ arr)).
Proof.
  intros STEP. induction tr as [|d tr IH]; intros st st' t G TR SL KP.
  - inversion TR; subst. exists t, []. split; [assumption|]. split; [constructor|]. rewrite app_nil_r. split; [apply subseq_refl|reflexivity].
  - inversion TR as [|w s0 o r e st1 tr0 st2 HW HO E TR2]; subst. inversion KP as [|d0 tr0 K1 K2]; subst.
    set (d := mkRD w st o r e st1) in *. assert (OK : did_ok d) by (split; [exact HW|]; split; [exact HO|]; split; [exact G|exact E]).
    destruct (STEP d t OK SL K1) as (t1 & new & S1 & BR & R1 & R2). pose proof (did_effects d OK) as (G1 & _). cbn [e_st' d] in G1, S1.
    destruct (IH st1 st' t1 G1 TR2 S1 K2) as (t' & arr & S' & CB & Q1 & Q2). exists t', (new ++ arr). split; [assumption|]. split; [constructor; assumption|].
    cbn [map concat]. rewrite !map_app in *. split.
    + rewrite <- app_assoc. eapply subseq_trans; [apply subseq_app; [apply subseq_refl|exact Q1]|]. rewrite !app_assoc. apply subseq_app; [exact R1|apply subseq_refl].
    + intros RO. inversion RO as [|d0 tr0 RO1 RO2]; subst. rewrite <- app_assoc, (Q2 RO2), !app_assoc. f_equal. apply R2. exact RO1.
Qed.

(** ** Raw sockets *)
Lemma raw_rx_step j d t : did_ok d -> raw_slot (e_st d) j t -> raw_keeps j d -> exists t' new, raw_slot (e_st' d) j t' /\ raw_brings j d new /\
  subseq (raw_hands j d ++ map raw_told (contents (r_rx t'))) (map raw_told (contents (r_rx t) ++ new)) /\
  (raw_roomy j d -> raw_hands j d ++ map raw_told (contents (r_rx t')) = map raw_told (contents (r_rx t) ++ new)).
Proof.
  intros OK SL KP. destruct (did_effects d OK) as (_ & _ & RE & _). destruct (RE j t SL) as (t' & S' & EF); [destruct d as [w st o r e st']; unfold raw_keeps in KP; cbn [e_o] in *; destruct o; exact KP|].
  exists t'. clear RE. destruct d as [w st o r e st']. unfold raw_hands, raw_brings, raw_roomy, raw_keeps in *. cbn [e_w e_st e_o e_r e_e e_st'] in *. clear KP.
  assert (QUIET : r_rx t' = r_rx t -> exists new, raw_slot st' j t' /\ new = [] /\ subseq ([] ++ map raw_told (contents (r_rx t'))) (map raw_told (contents (r_rx t) ++ new)) /\
     (True -> [] ++ map raw_told (contents (r_rx t')) = map raw_told (contents (r_rx t) ++ new))).
  { intros E. exists []. split; [exact S'|]. split; [reflexivity|]. rewrite E, app_nil_r. split; [apply subseq_refl|reflexivity]. }
  destruct o as [pr h|pr|i|i|i ip|i x pr|i ip|i o|i to b junk|i to b|i n|i n|i f|i f wild|o]; cbn [raw_eff] in EF.
  1-8,10,12,14: (destruct (QUIET (proj1 EF)) as (new & A & B & C & D); exists new; split; [exact A|]; split; [exact B|]; split; [exact C|]; intros _; apply D; exact I).
  - assert (ER : r_rx t' = r_rx t) by (destruct (i =? j); [destruct EF as (v & _ & SN); apply SN|subst t'; reflexivity]).
    destruct (QUIET ER) as (new & A & B & C & D); exists new; split; [exact A|]; split; [exact B|]; split; [exact C|]; intros _; apply D; exact I.
  - exists []. split; [exact S'|]. split; [reflexivity|]. rewrite app_nil_r. destruct (i =? j) eqn:EJ.
    + destruct EF as (_ & _ & _ & EF). destruct (contents (r_rx t)) as [|p l].
      * destruct EF as (-> & ->). split; [constructor|reflexivity].
      * destruct EF as (-> & [(_ & ->)|(_ & ->)]).
        -- cbn [app map]. unfold raw_told at 2 4. split; [apply sub_take, subseq_refl|reflexivity].
        -- cbn [app map]. split; [apply sub_skip, subseq_refl|]. intros X. exfalso. apply X; [lia|reflexivity].
    + subst t'. replace (match r with XData b a => [] | _ => [] end) with (@nil (list Z * Z)) by (destruct r; reflexivity). split; [apply subseq_refl|reflexivity].
  - destruct EF as [(U & W & (_ & _ & EQ & _))|(NW & ->)].
    + exists [ip_packet f]. split; [exact S'|]. split; [exists t; split; [exact SL|left; auto]|]. cbn [app]. apply enqueued_sub in EQ as (EQ & EQ2). split; [apply subseq_map; exact EQ|].
      intros RO. destruct (RO t SL W) as (R1 & R2). rewrite (EQ2 R1 R2). reflexivity.
    + exists []. split; [exact S'|]. split; [exists t; split; [exact SL|right; split; [|reflexivity]]|]. { intros W. apply NW. split; [apply SL|exact W]. } rewrite app_nil_r. split; [apply subseq_refl|reflexivity].
  - destruct (QUIET ltac:(destruct EF as (C & _); apply C)) as (new & A & B & C & D); exists new; split; [exact A|]; split; [exact B|]; split; [exact C|]; intros _; apply D; exact I.
Qed.
Lemma same_body g f : same_packet g f -> 34 <= zlen f -> body g = body f.
Proof.
  intros (L & ZZ) H. unfold body. assert (LS : forall x : list Z, zlen x = zlen f -> zlen (skipn 26 x) = zlen f - 26) by (intros x X; change 26%nat with (Z.to_nat 26); rewrite zlen_skipn by lia; lia). f_equal.
  - apply zget_ext; [rewrite !zlen_part by lia; reflexivity|]. intros i I. rewrite zlen_part in I by lia. rewrite !zget_part by lia. apply ZZ; lia.
  - apply zget_ext; [rewrite !LS by lia; reflexivity|]. intros i I. rewrite LS in I by lia. rewrite !zget_skipn by lia. apply ZZ; lia.
Qed.
Lemma same_bodies l l' : Forall2 same_packet l l' -> Forall raw_tx_ok l' -> map body l = map body l'.
Proof. induction 1 as [|g f l l' H F IH]; intros A; [reflexivity|]. inversion A as [|? ? X Y]; subst. cbn [map]. rewrite (same_body g f H) by (apply X). rewrite IH by assumption. reflexivity. Qed.
Definition raw_went (j : Z) (d : rdid) : list (list Z) := map body (map snd (raw_out j (e_e d))).
Lemma raw_tx_step j d t : did_ok d -> raw_slot (e_st d) j t -> raw_keeps j d -> exists t' new, raw_slot (e_st' d) j t' /\ raw_accepts j d new /\
  subseq (raw_went j d ++ map body (contents (r_tx t'))) (map body (contents (r_tx t) ++ new)) /\
  (raw_lucky j d -> raw_went j d ++ map body (contents (r_tx t')) = map body (contents (r_tx t) ++ new)).
Proof.
  intros OK SL KP. destruct (did_effects d OK) as (_ & _ & RE & _). destruct (RE j t SL) as (t' & S' & EF); [destruct d as [w st o r e st']; unfold raw_keeps in KP; cbn [e_o] in *; destruct o; exact KP|].
  assert (QT : Forall raw_tx_ok (contents (r_tx t))) by (destruct OK as (_ & _ & (_ & G & _) & _); eapply (Fnth RI) in G; [apply G|apply SL]).
  assert (NE : (forall o, e_o d <> PFlush o) -> e_e d = []). { destruct OK as (_ & _ & _ & E). intros NF. destruct d as [w st o r e st']. cbn [e_w e_st e_o e_r e_e e_st'] in *. destruct o; cbn [rstep] in E;
    try (match type of E with (let '(_, _) := ?x in _) = _ => destruct x end; congruence); try (match type of E with obind ?x _ = _ => destruct x as [[? ?]|] end; cbn [obind] in E; congruence);
    try (match type of E with obind ?x _ = _ => destruct x end; cbn [obind] in E; congruence). exfalso. exact (NF _ eq_refl). }
  exists t'. clear RE. destruct d as [w st o r e st']. unfold raw_went, raw_accepts, raw_lucky, raw_keeps in *. cbn [e_w e_st e_o e_r e_e e_st'] in *. clear KP.
  assert (QUIET : r_tx t' = r_tx t -> e = [] -> exists new, raw_slot st' j t' /\ new = [] /\ subseq (map body (map snd (raw_out j e)) ++ map body (contents (r_tx t'))) (map body (contents (r_tx t) ++ new)) /\
     (True -> map body (map snd (raw_out j e)) ++ map body (contents (r_tx t')) = map body (contents (r_tx t) ++ new))).
  { intros E ->. exists []. split; [exact S'|]. split; [reflexivity|]. rewrite E, app_nil_r. split; [apply subseq_refl|reflexivity]. }
  destruct o as [pr h|pr|i|i|i ip|i x pr|i ip|i o|i to b junk|i to b|i n|i n|i f|i f wild|o]; cbn [raw_eff] in EF.
  1-8,10,12,14: (destruct (QUIET (proj2 EF) ltac:(apply NE; intros; discriminate)) as (new & A & B & C & D); exists new; split; [exact A|]; split; [exact B|]; split; [exact C|]; intros _; apply D; exact I).
  - rewrite NE by (intros; discriminate). cbn [raw_out map app].
    assert (RX : exists v, r = XZ v). { destruct OK as (_ & _ & _ & E). cbn [e_w e_st e_o e_r e_e e_st' rstep] in E. unfold sendto_raw in E. destruct (negb (raw_ok st i)); [cbn [obind] in E; injection E as _ <- _; eauto|]. destruct (send_raw _ _ _ _ _ _) as [[[? ?] ?]|]; cbn [obind] in E; [injection E as _ <- _; eauto|discriminate]. }
    destruct RX as (v & ->). destruct (i =? j) eqn:EJ; cbn [andb].
    2:{ subst t'. exists []. split; [exact S'|]. split; [exists t; split; [exact SL|reflexivity]|]. rewrite app_nil_r. split; [apply subseq_refl|reflexivity]. }
    destruct EF as (v' & EV & SN). injection EV as <-. unfold raw_sent in SN. cbv zeta in SN. destruct SN as (_ & _ & _ & _ & _ & _ & _ & _ & [(-> & B0 & B1 & CP & f & FR & EQ)|[(-> & TX & _)|(-> & TX)]]).
    + exists [f]. split; [exact S'|]. split; [exists t; split; [exact SL|]; replace (0 <? zlen b) with true by lia; exists f; split; [reflexivity|exact FR]|].
      apply enqueued_sub in EQ as (EQ & EQ2). split; [apply subseq_map; exact EQ|]. intros LU.
      assert (LF : zlen f = 14 + zlen b + (if r_hdr t then 0 else 20)) by (destruct (r_hdr t); [destruct FR; lia|destruct FR as (ii & _ & FR); destruct FR; lia]). rewrite EQ2; [reflexivity|rewrite LF; exact CP|apply LU; [lia|exact SL|exact LF]].
    + exists []. split; [exact S'|]. split; [exists t; split; [exact SL|reflexivity]|]. rewrite TX, app_nil_r. split; [apply subseq_refl|reflexivity].
    + exists []. split; [exact S'|]. split; [exists t; split; [exact SL|reflexivity]|]. rewrite TX, app_nil_r. split; [apply subseq_refl|reflexivity].
  - assert (ER : r_tx t' = r_tx t) by (destruct (i =? j); [apply EF|subst t'; reflexivity]).
    destruct (QUIET ER ltac:(apply NE; intros; discriminate)) as (new & A & B & C & D); exists new; split; [exact A|]; split; [exact B|]; split; [exact C|]; intros _; apply D; exact I.
  - assert (ER : r_tx t' = r_tx t) by (destruct EF as [(_ & _ & (_ & X & _))|(_ & ->)]; [exact X|reflexivity]).
    destruct (QUIET ER ltac:(apply NE; intros; discriminate)) as (new & A & B & C & D); exists new; split; [exact A|]; split; [exact B|]; split; [exact C|]; intros _; apply D; exact I.
  - destruct EF as (_ & _ & SM & _). exists []. split; [exact S'|]. split; [reflexivity|]. rewrite app_nil_r, <- map_app, (same_bodies _ _ SM QT). split; [apply subseq_refl|reflexivity].
Qed.

(** ** Packet sockets *)
Lemma pkt_rx_step j d t : did_ok d -> pkt_slot (e_st d) j t -> pkt_keeps j d -> exists t' new, pkt_slot (e_st' d) j t' /\ pkt_brings j d new /\
  subseq (pkt_hands j d ++ map pkt_told (contents (p_rx t'))) (map pkt_told (contents (p_rx t) ++ new)) /\
  (pkt_roomy j d -> pkt_hands j d ++ map pkt_told (contents (p_rx t')) = map pkt_told (contents (p_rx t) ++ new)).
Proof.
  intros OK SL KP. destruct (did_effects d OK) as (_ & _ & _ & RE). destruct (RE j t SL) as (t' & S' & EF); [destruct d as [w st o r e st']; unfold pkt_keeps in KP; cbn [e_o] in *; destruct o; exact KP|].
  exists t'. clear RE. destruct d as [w st o r e st']. unfold pkt_hands, pkt_brings, pkt_roomy, pkt_keeps in *. cbn [e_w e_st e_o e_r e_e e_st'] in *. clear KP.
  assert (QUIET : p_rx t' = p_rx t -> exists new, pkt_slot st' j t' /\ new = [] /\ subseq ([] ++ map pkt_told (contents (p_rx t'))) (map pkt_told (contents (p_rx t) ++ new)) /\
     (True -> [] ++ map pkt_told (contents (p_rx t')) = map pkt_told (contents (p_rx t) ++ new))).
  { intros E. exists []. split; [exact S'|]. split; [reflexivity|]. rewrite E, app_nil_r. split; [apply subseq_refl|reflexivity]. }
  destruct o as [pr h|pr|i|i|i ip|i x pr|i ip|i o|i to b junk|i to b|i n|i n|i f|i f wild|o]; cbn [pkt_eff] in EF.
  1-9,11,13: (destruct (QUIET (proj1 EF)) as (new & A & B & C & D); exists new; split; [exact A|]; split; [exact B|]; split; [exact C|]; intros _; apply D; exact I).
  - assert (ER : p_rx t' = p_rx t) by (destruct (i =? j); [destruct EF as (v & _ & SN); apply SN|subst t'; reflexivity]).
    destruct (QUIET ER) as (new & A & B & C & D); exists new; split; [exact A|]; split; [exact B|]; split; [exact C|]; intros _; apply D; exact I.
  - exists []. split; [exact S'|]. split; [reflexivity|]. rewrite app_nil_r. destruct (i =? j) eqn:EJ.
    + destruct EF as (_ & _ & _ & EF). destruct (contents (p_rx t)) as [|p l].
      * destruct EF as (-> & ->). split; [constructor|reflexivity].
      * destruct EF as (-> & [(_ & ->)|(_ & ->)]).
        -- cbn [app map]. unfold pkt_told at 2 4. split; [apply sub_take, subseq_refl|reflexivity].
        -- cbn [app map]. split; [apply sub_skip, subseq_refl|]. intros X. exfalso. apply X; [lia|reflexivity].
    + subst t'. replace (match r with XFrame b x ty mac => [] | _ => [] end) with (@nil (list Z * Z * Z * list Z)) by (destruct r; reflexivity). split; [apply subseq_refl|reflexivity].
  - destruct EF as [(U & W & (_ & _ & _ & EQ))|(NW & ->)].
    + exists [record i f]. split; [exact S'|]. split; [exists t; split; [exact SL|left; auto]|]. cbn [app]. destruct EQ as [(CR & EQ)|(CR & EQ)].
      * rewrite EQ. split; [rewrite map_app, <- (app_nil_r (map pkt_told (contents (p_rx t)))) at 1; apply subseq_app; [apply subseq_refl|apply subseq_nil]|]. intros RO. destruct (RO t SL W) as (R0 & _). contradiction.
      * apply enqueued_sub in EQ as (EQ & EQ2). split; [apply subseq_map; exact EQ|]. intros RO. destruct (RO t SL W) as (_ & R1 & R2). rewrite (EQ2 R1 R2). reflexivity.
    + exists []. split; [exact S'|]. split; [exists t; split; [exact SL|right; split; [|reflexivity]]|]. { intros W. apply NW. split; [apply SL|exact W]. } rewrite app_nil_r. split; [apply subseq_refl|reflexivity].
  - destruct (QUIET ltac:(apply EF)) as (new & A & B & C & D); exists new; split; [exact A|]; split; [exact B|]; split; [exact C|]; intros _; apply D; exact I.
Qed.
Definition pkt_went (j : Z) (d : rdid) : list (list Z) := map snd (pkt_out j (e_e d)).
Lemma pkt_tx_step j d t : did_ok d -> pkt_slot (e_st d) j t -> pkt_keeps j d -> exists t' new, pkt_slot (e_st' d) j t' /\ pkt_accepts j d new /\
  subseq (pkt_went j d ++ map (fun f => f) (contents (p_tx t'))) (map (fun f => f) (contents (p_tx t) ++ new)) /\
  (pkt_lucky j d -> pkt_went j d ++ map (fun f => f) (contents (p_tx t')) = map (fun f => f) (contents (p_tx t) ++ new)).
Proof.
  intros OK SL KP. destruct (did_effects d OK) as (_ & _ & _ & RE). destruct (RE j t SL) as (t' & S' & EF); [destruct d as [w st o r e st']; unfold pkt_keeps in KP; cbn [e_o] in *; destruct o; exact KP|].
  assert (NE : (forall o, e_o d <> PFlush o) -> e_e d = []). { destruct OK as (_ & _ & _ & E). intros NF. destruct d as [w st o r e st']. cbn [e_w e_st e_o e_r e_e e_st'] in *. destruct o; cbn [rstep] in E;
    try (match type of E with (let '(_, _) := ?x in _) = _ => destruct x end; congruence); try (match type of E with obind ?x _ = _ => destruct x as [[? ?]|] end; cbn [obind] in E; congruence);
    try (match type of E with obind ?x _ = _ => destruct x end; cbn [obind] in E; congruence). exfalso. exact (NF _ eq_refl). }
  exists t'. rewrite !map_id. clear RE. destruct d as [w st o r e st']. unfold pkt_went, pkt_accepts, pkt_lucky, pkt_keeps in *. cbn [e_w e_st e_o e_r e_e e_st'] in *. clear KP.
  assert (QUIET : p_tx t' = p_tx t -> e = [] -> exists new, pkt_slot st' j t' /\ new = [] /\ subseq (map snd (pkt_out j e) ++ contents (p_tx t')) (map (fun f => f) (contents (p_tx t) ++ new)) /\
     (True -> map snd (pkt_out j e) ++ contents (p_tx t') = map (fun f => f) (contents (p_tx t) ++ new))).
  { intros E ->. exists []. split; [exact S'|]. split; [reflexivity|]. rewrite E, app_nil_r, map_id. split; [apply subseq_refl|reflexivity]. }
  destruct o as [pr h|pr|i|i|i ip|i x pr|i ip|i o|i to b junk|i to b|i n|i n|i f|i f wild|o]; cbn [pkt_eff] in EF.
  1-9,11,13: (destruct (QUIET (proj2 EF) ltac:(apply NE; intros; discriminate)) as (new & A & B & C & D); exists new; split; [exact A|]; split; [exact B|]; split; [exact C|]; intros _; apply D; exact I).
  - rewrite NE by (intros; discriminate). cbn [pkt_out map app].
    assert (RX : exists v, r = XZ v). { destruct OK as (_ & _ & _ & E). cbn [e_w e_st e_o e_r e_e e_st' rstep] in E. unfold sendto_pkt in E. destruct (negb (pkt_ok st i)); [cbn [obind] in E; injection E as _ <- _; eauto|]. destruct (send_pkt _ _ _ _) as [[? ?]|]; cbn [obind] in E; [injection E as _ <- _; eauto|discriminate]. }
    destruct RX as (v & ->). destruct (i =? j) eqn:EJ; cbn [andb].
    2:{ subst t'. exists []. split; [exact S'|]. split; [exists t; split; [exact SL|reflexivity]|]. rewrite app_nil_r, ?map_id. split; [apply subseq_refl|reflexivity]. }
    destruct EF as (v' & EV & SN). injection EV as <-. destruct SN as (_ & _ & [(-> & B0 & CP & x & f & CH & PI & ST & EQ)|[(-> & TX & _)|(-> & TX)]]).
    + exists [f]. split; [exact S'|]. split; [exists t; split; [exact SL|]; replace (0 <? zlen b) with true by lia; exists x, f; split; [reflexivity|]; split; assumption|].
      apply enqueued_sub in EQ as (EQ & EQ2). rewrite !map_id. split; [exact EQ|]. intros LU. destruct ST as (LF & _). apply EQ2; [rewrite LF; exact CP|apply LU; [lia|exact SL|exact LF]].
    + exists []. subst t'. split; [exact S'|]. split; [exists t; split; [exact SL|reflexivity]|]. rewrite app_nil_r, ?map_id. split; [apply subseq_refl|reflexivity].
    + exists []. split; [exact S'|]. split; [exists t; split; [exact SL|reflexivity]|]. rewrite TX, app_nil_r, ?map_id. split; [apply subseq_refl|reflexivity].
  - assert (ER : p_tx t' = p_tx t) by (destruct (i =? j); [apply EF|subst t'; reflexivity]).
    destruct (QUIET ER ltac:(apply NE; intros; discriminate)) as (new & A & B & C & D); exists new; split; [exact A|]; split; [exact B|]; split; [exact C|]; intros _; apply D; exact I.
  - assert (ER : p_tx t' = p_tx t) by (destruct EF as [(_ & _ & (_ & _ & X & _))|(_ & ->)]; [exact X|reflexivity]).
    destruct (QUIET ER ltac:(apply NE; intros; discriminate)) as (new & A & B & C & D); exists new; split; [exact A|]; split; [exact B|]; split; [exact C|]; intros _; apply D; exact I.
  - destruct EF as (_ & _ & _ & CE & PO). exists []. split; [exact S'|]. split; [reflexivity|]. rewrite PO, CE, map_map. cbn [map snd]. rewrite !app_nil_r, !map_id. split; [apply subseq_refl|reflexivity].
Qed.
