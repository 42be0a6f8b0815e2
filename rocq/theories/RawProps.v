(** Raw and packet sockets: the theorems (properties C80-C84). *)
From Verif Require Import Base ListUtil Checksum ChecksumProps Route RouteProps Arp HttpUrl Fifo Forward ForwardSpec ForwardProofs ForwardStep ForwardProps Udp UdpFifo UdpSpec UdpFrames UdpInv UdpOps UdpFlush UdpHist Raw RawSpec RawInv RawSend RawFlush RawStep RawHist.

Lemma quiet_event w st o st' r e : rstep w st o = Some (st', r, e) -> (forall x, o <> PFlush x) -> e = [].
Proof.
  intros E NF. destruct o; cbn [rstep] in E; try (match type of E with (let '(_, _) := ?x in _) = _ => destruct x end; congruence); try (match type of E with obind ?x _ = _ => destruct x as [[? ?]|] end; cbn [obind] in E; congruence);
  try (match type of E with obind ?x _ = _ => destruct x end; cbn [obind] in E; congruence). exfalso. exact (NF _ eq_refl).
Qed.
Lemma F2_slot {A B} (R : A -> B -> Prop) l l' : Forall2 R l l' -> forall n x, nth_error l n = Some x -> exists y, nth_error l' n = Some y /\ R x y.
Proof. induction 1 as [|a b l l' H F IH]; intros n x N; destruct n as [|n]; try discriminate. { injection N as <-. exists b. auto. } apply IH. exact N. Qed.

(** ** Everything is defined; what a driver takes fits *)
(** In every state the stack can reach, every admissible operation is free of undefined
    behaviour, and every frame a driver takes exists on a configured interface and is no
    longer than its MTU allows. *)
Theorem raw_sockets_total w st o : rworld_ok w -> rreached st -> rop_in w st o ->
  exists st' r e, rstep w st o = Some (st', r, e) /\ Forall (raw_wire w) e /\ ((forall x, o <> PFlush x) -> e = []).
Proof.
  intros HW G HO. destruct (rstep_effects w st o HW (rreached_good st G) HO) as (st' & r & e & E & (_ & F & _)). exists st', r, e. split; [exact E|]. split; [exact F|]. eapply quiet_event; exact E.
Qed.
(** One socket's operations leave the queues of all others as they are. *)
Theorem raw_sockets_independent w st o st' r e : rworld_ok w -> rreached st -> rop_in w st o -> rstep w st o = Some (st', r, e) ->
  (forall j t, raw_slot st j t -> (match o with PInIp _ _ | PFlush _ => False | PSendRaw i _ _ _ | PRecvRaw i _ | PCloseRaw i => i <> j | _ => True end) ->
     exists t', raw_slot st' j t' /\ r_rx t' = r_rx t /\ r_tx t' = r_tx t) /\
  (forall j t, pkt_slot st j t -> (match o with PInFrame _ _ _ | PFlush _ => False | PSendPkt i _ _ | PRecvPkt i _ | PClosePkt i => i <> j | _ => True end) ->
     exists t', pkt_slot st' j t' /\ p_rx t' = p_rx t /\ p_tx t' = p_tx t).
Proof.
  intros HW G HO E. destruct (rstep_good _ _ _ _ _ _ HW (rreached_good st G) HO E) as (_ & _ & R1 & R2). split; intros j t S K.
  - destruct (R1 j t S) as (t' & S' & EF); [destruct o; exact K || exact I|]. exists t'. split; [exact S'|]. destruct o; cbn [raw_eff] in EF; try contradiction; try exact EF.
    + destruct (i =? j) eqn:Q; [exfalso; apply K; lia|subst t'; auto].
    + destruct (i =? j) eqn:Q; [exfalso; apply K; lia|subst t'; auto].
  - destruct (R2 j t S) as (t' & S' & EF); [destruct o; exact K || exact I|]. exists t'. split; [exact S'|]. destruct o; cbn [pkt_eff] in EF; try contradiction; try exact EF.
    + destruct (i =? j) eqn:Q; [exfalso; apply K; lia|subst t'; auto].
    + destruct (i =? j) eqn:Q; [exfalso; apply K; lia|subst t'; auto].
Qed.

(** ** Raw sockets: reception *)
(** A packet goes to exactly the open sockets that want it, whole and unchanged; nothing else changes. *)
Theorem raw_delivers_exactly w st i f : rworld_ok w -> rreached st -> frame_ok f -> 0 <= i < zlen (w_ifs w) ->
  exists st', rstep w st (PInIp i f) = Some (st', XVoid, []) /\ t_pkt st' = t_pkt st /\
    forall j t, raw_slot st j t -> exists t', raw_slot st' j t' /\ ((raw_wants i f t /\ raw_handed t f t') \/ (~ raw_wants i f t /\ t' = t)).
Proof.
  intros HW G FO HI. destruct (raw_try_spec st i f ltac:(destruct HW; lia) FO (rreached_good st G)) as (st' & E & _ & EP & _ & F).
  exists st'. cbn [rstep]. rewrite E. split; [reflexivity|]. split; [exact EP|]. intros j t (J & N & U). destruct (F2_slot _ _ _ F _ _ N) as (t' & N' & [(_ & W & H)|(W & ->)]).
  - exists t'. split; [|left; auto]. split; [exact J|]. split; [exact N'|]. destruct H as ((U' & _) & _). congruence.
  - exists t. split; [split; auto|]. right. split; [|reflexivity]. intros X. apply W. auto.
Qed.
(** recvfrom: the oldest packet whole, with its source address; too small a buffer loses it; none: -EAGAIN. *)
Theorem raw_recv_oldest w st i n t : rworld_ok w -> rreached st -> raw_slot st i t ->
  exists st' t' r, rstep w st (PRecvRaw i n) = Some (st', r, []) /\ raw_slot st' i t' /\ raw_same t t' /\ r_tx t' = r_tx t /\
    match contents (r_rx t) with
    | [] => r = XZ (-11) /\ contents (r_rx t') = []
    | p :: l => contents (r_rx t') = l /\ ((zlen p <= n /\ r = XData p (addr p 12)) \/ (n < zlen p /\ r = XZ (-22)))
    end.
Proof.
  intros HW G S. destruct (rstep_effects w st (PRecvRaw i n) HW (rreached_good st G) I) as (st' & r & e & E & (_ & _ & R & _)).
  destruct (R i t S I) as (t' & S' & EF). cbn [raw_eff] in EF. rewrite Z.eqb_refl in EF. destruct EF as (A & B & _ & C).
  assert (e = []) as -> by (eapply quiet_event; [exact E|discriminate]). exists st', t', r. auto.
Qed.
(** Over any history during which the socket stays open: what recvfrom handed out, followed by
    what is still queued, is a subsequence, in order, of what was queued before followed by
    the packets that arrived and that the socket wanted; and it is all of it if there was
    always room and every buffer was long enough. *)
Theorem raw_receives_in_order j st tr st' t : rreached st -> rtrace st tr st' -> raw_slot st j t -> Forall (raw_keeps j) tr ->
  exists t' arr, raw_slot st' j t' /\ gathers (raw_brings j) tr arr /\
    subseq (concat (map (raw_hands j) tr) ++ map raw_told (contents (r_rx t'))) (map raw_told (contents (r_rx t) ++ arr)) /\
    (Forall (raw_roomy j) tr -> concat (map (raw_hands j) tr) ++ map raw_told (contents (r_rx t')) = map raw_told (contents (r_rx t) ++ arr)).
Proof.
  intros G T S K. apply (flow (fun s t => raw_slot s j t) (fun t => contents (r_rx t)) raw_told (raw_hands j) (raw_brings j) (raw_keeps j) (raw_roomy j) (fun d t => raw_rx_step j d t) tr st st' t (rreached_good st G) T S K).
Qed.

(** ** Packet sockets: reception *)
Theorem pkt_delivers_exactly w st i f wild : rworld_ok w -> rreached st -> frame_ok f -> 14 <= zlen f -> 0 <= i < zlen (w_ifs w) ->
  exists st', rstep w st (PInFrame i f wild) = Some (st', XVoid, []) /\ t_raw st' = t_raw st /\
    forall j t, pkt_slot st j t -> exists t', pkt_slot st' j t' /\ ((pkt_wants i f wild t /\ pkt_handed i t f t') \/ (~ pkt_wants i f wild t /\ t' = t)).
Proof.
  intros HW G FO L HI. destruct (pkt_try_spec st i f wild ltac:(destruct HW; lia) FO L (rreached_good st G)) as (st' & E & _ & EP & _ & F).
  exists st'. cbn [rstep]. rewrite E. split; [reflexivity|]. split; [exact EP|]. intros j t (J & N & U). destruct (F2_slot _ _ _ F _ _ N) as (t' & N' & [(_ & W & H)|(W & ->)]).
  - exists t'. split; [|left; auto]. split; [exact J|]. split; [exact N'|]. destruct H as ((U' & _) & _). congruence.
  - exists t. split; [split; auto|]. right. split; [|reflexivity]. intros X. apply W. auto.
Qed.
(** recvfrom: the oldest frame, the interface it came in on, its type and its sender. *)
Theorem pkt_recv_oldest w st i n t : rworld_ok w -> rreached st -> pkt_slot st i t ->
  exists st' t' r, rstep w st (PRecvPkt i n) = Some (st', r, []) /\ pkt_slot st' i t' /\ pkt_same t t' /\ p_if t' = p_if t /\ p_tx t' = p_tx t /\
    match contents (p_rx t) with
    | [] => r = XZ (-11) /\ contents (p_rx t') = []
    | p :: l => contents (p_rx t') = l /\
        let f := skipn 1 p in ((zlen f <= n /\ r = XFrame f (zget p 0) (word f 12) (part f 6 6)) \/ (n < zlen f /\ r = XZ (-22)))
    end.
Proof.
  intros HW G S. destruct (rstep_effects w st (PRecvPkt i n) HW (rreached_good st G) I) as (st' & r & e & E & (_ & _ & _ & R)).
  destruct (R i t S I) as (t' & S' & EF). cbn [pkt_eff] in EF. rewrite Z.eqb_refl in EF. destruct EF as (A & B & C & D).
  assert (e = []) as -> by (eapply quiet_event; [exact E|discriminate]). exists st', t', r. split; [exact E|]. split; [exact S'|]. split; [exact A|]. split; [exact B|]. split; [exact C|exact D].
Qed.
Theorem pkt_receives_in_order j st tr st' t : rreached st -> rtrace st tr st' -> pkt_slot st j t -> Forall (pkt_keeps j) tr ->
  exists t' arr, pkt_slot st' j t' /\ gathers (pkt_brings j) tr arr /\
    subseq (concat (map (pkt_hands j) tr) ++ map pkt_told (contents (p_rx t'))) (map pkt_told (contents (p_rx t) ++ arr)) /\
    (Forall (pkt_roomy j) tr -> concat (map (pkt_hands j) tr) ++ map pkt_told (contents (p_rx t')) = map pkt_told (contents (p_rx t) ++ arr)).
Proof.
  intros G T S K. apply (flow (fun s t => pkt_slot s j t) (fun t => contents (p_rx t)) pkt_told (pkt_hands j) (pkt_brings j) (pkt_keeps j) (pkt_roomy j) (fun d t => pkt_rx_step j d t) tr st st' t (rreached_good st G) T S K).
Qed.
(** ** Raw sockets: sending *)
Theorem raw_send_exact w st i to b junk t : rworld_ok w -> rreached st -> rop_in w st (PSendRaw i to b junk) -> raw_slot st i t ->
  exists st' t' r, rstep w st (PSendRaw i to b junk) = Some (st', XZ r, []) /\ raw_slot st' i t' /\ raw_sent w t to b t' r.
Proof.
  intros HW G HO S. destruct (rstep_effects w st _ HW (rreached_good st G) HO) as (st' & r & e & E & (_ & _ & R & _)).
  destruct (R i t S I) as (t' & S' & EF). cbn [raw_eff] in EF. rewrite Z.eqb_refl in EF. destruct EF as (v & -> & SN).
  assert (e = []) as -> by (eapply quiet_event; [exact E|discriminate]). exists st', t', v. auto.
Qed.
(** The flush gives the queued packets to interfaces in order, each with a link header that
    names this interface and the neighbour; what is not sent stays, in order; nothing stays
    when ARP knows every neighbour. *)
Theorem raw_flush_in_order w st o j t : rworld_ok w -> rreached st -> rop_in w st (PFlush o) -> raw_slot st j t ->
  exists st' t' e, rstep w st (PFlush o) = Some (st', XVoid, e) /\ raw_slot st' j t' /\ r_rx t' = r_rx t /\
    Forall (fun x => raw_frame w o t (fst x) (snd x)) (raw_out j e) /\
    Forall2 same_packet (map snd (raw_out j e) ++ contents (r_tx t')) (contents (r_tx t)) /\
    (clear_way w o -> contents (r_tx t') = []).
Proof.
  intros HW G HO S. destruct (rstep_effects w st _ HW (rreached_good st G) HO) as (st' & r & e & E & (_ & _ & R & _)).
  destruct (R j t S I) as (t' & S' & EF). cbn [raw_eff] in EF. destruct EF as ((_ & _ & _ & _ & _ & _ & _ & _ & RX & _) & FR & SP & CW).
  assert (r = XVoid) as -> by (cbn [rstep] in E; destruct (rflush w st o) as [[? ?]|]; cbn [obind] in E; congruence). exists st', t', e. auto 10.
Qed.
(** Over any history: what left, followed by what is queued, is a subsequence of what was
    queued followed by what sendto accepted (all of it, unless a send met a bad buffer
    position); packets are compared without link header and header checksum. *)
Theorem raw_transmits_in_order j st tr st' t : rreached st -> rtrace st tr st' -> raw_slot st j t -> Forall (raw_keeps j) tr ->
  exists t' acc, raw_slot st' j t' /\ gathers (raw_accepts j) tr acc /\
    subseq (concat (map (fun d => map body (map snd (raw_out j (e_e d)))) tr) ++ map body (contents (r_tx t'))) (map body (contents (r_tx t) ++ acc)) /\
    (Forall (raw_lucky j) tr -> concat (map (fun d => map body (map snd (raw_out j (e_e d)))) tr) ++ map body (contents (r_tx t')) = map body (contents (r_tx t) ++ acc)).
Proof.
  intros G T S K. apply (flow (fun s t => raw_slot s j t) (fun t => contents (r_tx t)) body (raw_went j) (raw_accepts j) (raw_keeps j) (raw_lucky j) (fun d t => raw_tx_step j d t) tr st st' t (rreached_good st G) T S K).
Qed.

(** ** Packet sockets: sending *)
Theorem pkt_send_exact w st i to b t : rworld_ok w -> rreached st -> rop_in w st (PSendPkt i to b) -> pkt_slot st i t ->
  exists st' t' r, rstep w st (PSendPkt i to b) = Some (st', XZ r, []) /\ pkt_slot st' i t' /\ pkt_sent w t to b t' r.
Proof.
  intros HW G HO S. destruct (rstep_effects w st _ HW (rreached_good st G) HO) as (st' & r & e & E & (_ & _ & _ & R)).
  destruct (R i t S I) as (t' & S' & EF). cbn [pkt_eff] in EF. rewrite Z.eqb_refl in EF. destruct EF as (v & -> & SN).
  assert (e = []) as -> by (eapply quiet_event; [exact E|discriminate]). exists st', t', v. auto.
Qed.
(** The flush hands every queued frame, unchanged and in order, to the socket's interface. *)
Theorem pkt_flush_in_order w st o j t : rworld_ok w -> rreached st -> rop_in w st (PFlush o) -> pkt_slot st j t ->
  exists st' t' e, rstep w st (PFlush o) = Some (st', XVoid, e) /\ pkt_slot st' j t' /\ p_rx t' = p_rx t /\ contents (p_tx t') = [] /\
    pkt_out j e = map (fun f => (if zlen (w_ifs w) <=? p_if t then 0 else p_if t, f)) (contents (p_tx t)).
Proof.
  intros HW G HO S. destruct (rstep_effects w st _ HW (rreached_good st G) HO) as (st' & r & e & E & (_ & _ & _ & R)).
  destruct (R j t S I) as (t' & S' & EF). cbn [pkt_eff] in EF. destruct EF as (_ & _ & RX & CE & PO).
  assert (r = XVoid) as -> by (cbn [rstep] in E; destruct (rflush w st o) as [[? ?]|]; cbn [obind] in E; congruence). exists st', t', e. auto 10.
Qed.
Theorem pkt_transmits_in_order j st tr st' t : rreached st -> rtrace st tr st' -> pkt_slot st j t -> Forall (pkt_keeps j) tr ->
  exists t' acc, pkt_slot st' j t' /\ gathers (pkt_accepts j) tr acc /\
    subseq (concat (map (fun d => map snd (pkt_out j (e_e d))) tr) ++ contents (p_tx t')) (contents (p_tx t) ++ acc) /\
    (Forall (pkt_lucky j) tr -> concat (map (fun d => map snd (pkt_out j (e_e d))) tr) ++ contents (p_tx t') = contents (p_tx t) ++ acc).
Proof.
  intros G T S K. destruct (flow (fun s t => pkt_slot s j t) (fun t => contents (p_tx t)) (fun f => f) (pkt_went j) (pkt_accepts j) (pkt_keeps j) (pkt_lucky j) (fun d t => pkt_tx_step j d t) tr st st' t (rreached_good st G) T S K) as (t' & acc & A & B & C & D).
  exists t', acc. rewrite !map_id in C, D. auto.
Qed.
Print Assumptions raw_sockets_total.
Print Assumptions raw_sockets_independent.
Print Assumptions raw_delivers_exactly.
Print Assumptions raw_recv_oldest.
Print Assumptions raw_receives_in_order.
Print Assumptions pkt_delivers_exactly.
Print Assumptions pkt_recv_oldest.
Print Assumptions pkt_receives_in_order.
Print Assumptions raw_send_exact.
Print Assumptions raw_flush_in_order.
Print Assumptions raw_transmits_in_order.
Print Assumptions pkt_send_exact.
Print Assumptions pkt_flush_in_order.
Print Assumptions pkt_transmits_in_order.
