(** Datagram sockets: theorems C25, C26, C39, C62, C63 (specification: UdpSpec). *)
From Verif Require Import Base ListUtil Checksum ChecksumProps Route RouteProps Arp HttpUrl Fifo Forward ForwardSpec ForwardProofs ForwardStep Udp UdpFifo UdpSpec UdpFrames UdpInv UdpOps UdpFlush UdpSafe UdpMcast UdpTotal UdpMember UdpTable UdpHist.

(** ** No operation of any history reaches undefined behaviour *)
Theorem udp_histories_defined h : hist_ok h -> exists st l, urun ust0 h = Some (st, l) /\ length l = length h.
Proof.
  assert (X : forall h st, Good st -> hist_ok h -> exists st' l, urun st h = Some (st', l) /\ length l = length h).
  { clear h. induction h as [|[w o] h IH]; intros st G H; cbn [urun]; [eexists _, []; split; reflexivity|]. inversion H as [|? ? (HW & HO) H2]; subst. cbn [fst snd] in *.
    destruct (ustep_defined w st o HW HO G) as (st1 & r & e & -> & G1). cbn [obind]. destruct (IH st1 G1 H2) as (st2 & l & -> & L). cbn [obind]. eexists _, _. split; [reflexivity|]. cbn [length]. congruence. }
  apply X, Good0.
Qed.
Theorem udp_operation_defined st w o : reached st -> uworld_ok w -> op_in w o -> exists st' r e, ustep w st o = Some (st', r, e) /\ reached st'.
Proof.
  intros R HW HO. destruct (ustep_defined w st o HW HO (reaches_good _ _ R)) as (st' & r & e & E & _). exists st', r, e. split; [exact E|]. econstructor; [exact R|exact HW|exact HO|exact I|exact E].
Qed.

(** ** C25: demultiplexing *)
Theorem udp_demux_exact st w i f st' r e : reached st -> uworld_ok w -> op_in w (OUdp i f) -> ustep w st (OUdp i f) = Some (st', r, e) ->
  Forall2 (fun t t' => (asks w i f t /\ handed t f t') \/ (~ asks w i f t /\ t' = t)) (u_udp st) (u_udp st') /\
  u_tcp st' = u_tcp st /\ u_icmp st' = u_icmp st /\ u_mc st' = u_mc st /\
  (e = [] \/ exists g, e = [UUnreach i g] /\ port_unreachable w i f g /\ valid_udp f /\ w_frecv w i f = false /\
                       unicast_to_us w f /\ forall t, In t (u_udp st) -> ~ wants w i f t) /\
  (valid_udp f -> w_frecv w i f = false -> unicast_to_us w f -> (forall t, In t (u_udp st) -> ~ wants w i f t) ->
   (forall g, w_fsend w i g = false) -> 70 <= w_mtu w i -> e <> []).
Proof.
  intros R HW HO E. cbn [op_in] in HO. destruct HO as (F & I & Z9).
  destruct (udp_recv_spec w st i f HW (reaches_good _ _ R) I F (fr69 f Z9)) as (st2 & e2 & E2 & _ & ET & EI & EM & FA & U1 & U2). cbn [ustep] in E. rewrite E2 in E. cbn [obind] in E. injection E as <- <- <-.
  split; [|auto 10]. eapply F2_imp; [exact FA|]. intros x y _ [(A & B & C & D)|(A & B)]; [left|right]; unfold asks; auto.
Qed.
Theorem recvfrom_returns_oldest st w fd blen j t st' r e : reached st -> uworld_ok w -> designates st fd FUdp j -> slot st FUdp j t ->
  ustep w st (ORecv fd blen) = Some (st', r, e) ->
  exists t', slot st' FUdp j t' /\
  match contents (s_rx t) with
  | [] => r = RZ (-11) /\ contents (s_rx t') = []
  | f :: q => contents (s_rx t') = q /\ (zlen (payload f) <= blen -> r = RData (payload f) (src f) (sport f)) /\ (blen < zlen (payload f) -> r = RZ (-22))
  end.
Proof.
  intros R HW D SL E. pose proof (reaches_good _ _ R) as G. cbn [ustep] in E. unfold recvfrom in E.
  destruct (decode_spec st fd) as [(x & _ & _ & ND)|(k & i & D0 & D2 & RG)]; [exfalso; eapply ND; exact D|]. rewrite D0 in E.
  assert (K : k = FUdp /\ i = j). { destruct D as (_ & -> & _ & D), D2 as (_ & -> & _ & D2). destruct k; split; try reflexivity; exfalso; destruct D as (A & B); [congruence|destruct D2 as (_ & C & _); congruence]. }
  destruct K as (-> & ->). destruct SL as (J & N). cbn [socks] in N. assert (Et : sock_at (u_udp st) j = t) by (apply sock_at_in; assumption). rewrite Et in E.
  destruct (recv_udp_spec t blen) as (t1 & q & E1 & S & C & EV). { rewrite <- Et. apply (slot_at st FUdp j G). apply slot_in with (t := t). split; assumption. }
  rewrite E1 in E. cbn [obind] in E. injection E as <- <- <-. exists t1. split; [|exact EV]. split; [assumption|]. cbn [socks u_udp with_udp]. unfold upd. apply set_nth_same. apply nth_error_Some. congruence.
Qed.
(** Over any history: what recvfrom hands out on a socket opened empty are datagrams that
    arrived for it, each at most once, in order of arrival, with their data, source and port. *)
Theorem udp_reads_what_arrived st0 j t0 tr st got : reached st0 -> slot st0 FUdp j t0 -> s_open t0 = true -> contents (s_rx t0) = [] ->
  trace st0 tr st -> Forall (keeps j) tr -> collects (hands j) tr got ->
  exists arrived, collects (brings j) tr arrived /\ subseq got (map told arrived).
Proof.
  intros R SL OP E0 TR KP CO. destruct (stream j tr st0 st t0 got (reaches_good _ _ R) TR SL OP KP CO) as (t' & arr & _ & CB & Q & _).
  exists arr. split; [assumption|]. rewrite E0 in Q. cbn [app] in Q. eapply subseq_trans; [|exact Q]. rewrite <- (app_nil_r got) at 1. apply subseq_app; [apply subseq_refl|apply subseq_nil].
Qed.
(** If every datagram found room, nothing is lost: what was read, then what is still
    queued, is exactly what arrived. *)
Theorem udp_nothing_lost st0 j t0 tr st got : reached st0 -> slot st0 FUdp j t0 -> s_open t0 = true -> contents (s_rx t0) = [] ->
  trace st0 tr st -> Forall (keeps j) tr -> Forall (roomy j) tr -> collects (hands j) tr got ->
  exists t arrived, slot st FUdp j t /\ collects (brings j) tr arrived /\ got ++ map told (contents (s_rx t)) = map told arrived.
Proof.
  intros R SL OP E0 TR KP RO CO. destruct (stream j tr st0 st t0 got (reaches_good _ _ R) TR SL OP KP CO) as (t' & arr & S' & CB & _ & Q).
  exists t', arr. split; [assumption|]. split; [assumption|]. rewrite (Q RO), E0. reflexivity.
Qed.

(** ** C26: descriptors and ports *)
Theorem descriptor_names_one_slot st fd k i k' i' : designates st fd k i -> designates st fd k' i' -> k = k' /\ i = i'.
Proof. intros (_ & -> & _ & D) (_ & -> & _ & D'). split; [|reflexivity]. destruct k, k'; try reflexivity; exfalso; intuition congruence. Qed.
Theorem descriptor_of_slot st k i : reached st -> 0 <= i < zlen (socks st k) -> designates st (fd_of k i) k i.
Proof.
  intros R I. pose proof (reaches_good _ _ R) as (A & B & _ & C & _). assert (I256 : 0 <= i < 256) by (destruct k; cbn [socks] in I; lia).
  assert (BL : forall n, 8 <= n -> Z.testbit i n = false). { intros n Hn. destruct (Z.eq_dec i 0) as [-> |]; [apply Z.bits_0|]. apply Z.bits_above_log2; [lia|]. apply Z.log2_lt_pow2; [lia|]. assert (2 ^ 8 <= 2 ^ n) by (apply Z.pow_le_mono_r; lia). change (2 ^ 8) with 256 in *. lia. }
  rewrite <- lor_add by exact I256. unfold designates. rewrite Z.lor_nonneg. split; [destruct k; unfold mark, MARK_TCP, MARK_UDP, MARK_ICMP; lia|].
  split; [|split; [lia|]].
  - change 256 with (2 ^ 8). rewrite <- Z.land_ones by lia. rewrite Z.land_lor_distr_l, !Z.land_ones by lia. destruct k; cbn [mark]; unfold MARK_TCP, MARK_UDP, MARK_ICMP;
    match goal with |- i = Z.lor _ (?m mod 2 ^ 8) => replace (m mod 2 ^ 8) with 0 by reflexivity end; rewrite Z.lor_0_r, Z.mod_small by (change (2 ^ 8) with 256; lia); reflexivity.
  - destruct k; cbn [mark]; rewrite !Z.lor_spec, !BL by lia; repeat split; reflexivity.
Qed.
(** socket(): the lowest slot that is not open, or an error when there is none. *)
Theorem socket_opens_a_free_slot st w k st' r e : reached st -> uworld_ok w -> ustep w st (OSocket k) = Some (st', r, e) ->
  (r = RZ (-1) /\ st' = st /\ forall i t, slot st k i t -> s_open t = true) \/
  (exists i t t', r = RZ (fd_of k i) /\ slot st k i t /\ s_open t = false /\ slot st' k i t' /\ s_open t' = true /\ (k <> FTcp -> contents (s_rx t') = [] /\ contents (s_tx t') = []) /\
     (forall j u, slot st k j u -> j < i -> s_open u = true) /\ (forall k' j u, slot st k' j u -> (k' <> k \/ j <> i) -> slot st' k' j u)).
Proof.
  intros R HW E. pose proof (reaches_good _ _ R) as (A & B & _ & C & _). cbn [ustep] in E. unfold socket in E. pose proof (free_slot_spec (socks st k) 0) as F. destruct (free_slot (socks st k) 0) as [i|]; injection E as <- <- <-.
  - right. destruct F as (RG & (t & Nt & Ot) & LO). rewrite Z.sub_0_r in Nt. exists i, t, (open_sock k t). assert (Et : sock_at (socks st k) i = t) by (apply sock_at_in; [lia|assumption]). rewrite Et.
    split; [rewrite lor_add by (destruct k; cbn [socks] in RG; lia); reflexivity|]. split; [split; [lia|assumption]|]. split; [assumption|].
    split; [split; [lia|]; rewrite set_socks_same; unfold upd; apply set_nth_same; unfold zlen in RG; lia|]. split; [reflexivity|].
    split; [intros _; split; cbn [open_sock s_rx s_tx]; (eapply fq_contents; apply fresh_fq); reflexivity || (unfold RXBUF, TXBUF, DESC; lia)|].
    split. { intros j u (J & Nj) JL. apply (LO j u); [lia|]. rewrite Z.sub_0_r. assumption. }
    intros k' j u (J & Nj) NE. split; [assumption|]. rewrite socks_set. destruct k, k'; try exact Nj; rewrite upd_other; try exact Nj; try lia; destruct NE as [NE|NE]; congruence || (intros X; apply NE; congruence).
  - left. split; [reflexivity|]. split; [reflexivity|]. intros i t (_ & N). apply F. eapply nth_error_In. exact N.
Qed.
(** A socket stays open until it is closed through its own descriptor. *)
Theorem open_until_closed st w o st' r e k j t : reached st -> uworld_ok w -> op_in w o -> ustep w st o = Some (st', r, e) ->
  slot st k j t -> s_open t = true -> exists t', slot st' k j t' /\ (s_open t' = true \/ exists fd, o = OClose fd /\ designates st fd k j).
Proof.
  intros R HW HO E SL OP. destruct (ustep_table _ _ _ _ _ _ HW HO (reaches_good _ _ R) E k j t SL) as (t' & S' & C). exists t'. split; [assumption|].
  apply change_open in C as [-> |[(X & _)|(fd & O & D & _)]]; [auto|congruence|right; eauto].
Qed.
(** The descriptor an operation is given. *)
Definition fd_in (o : uop) : option Z :=
  match o with OBind fd _ _ _ _ | OConnect fd _ _ | OClose fd | OOpt fd _ | OSend fd _ _ _ | ORecv fd _ => Some fd | _ => None end.
Theorem bad_descriptor_no_effect st w o fd st' r e : reached st -> uworld_ok w -> op_in w o -> fd_in o = Some fd -> (forall k i, ~ designates st fd k i) ->
  ustep w st o = Some (st', r, e) -> st' = st /\ e = [] /\ exists z, r = RZ z /\ z < 0.
Proof.
  intros R HW HO FD ND E. pose proof (reaches_good _ _ R) as (A & B & _ & C & _). destruct (decode_spec st fd) as [(x & D0 & XN & _)|(k & i & _ & D & _)]; [|exfalso; eapply ND; exact D].
  destruct o; try discriminate FD; injection FD as ->; cbn [ustep] in E.
  - unfold bind in E. destruct (fd <? 0); [injection E as <- <- <-; repeat (split; [reflexivity|]); eexists; split; [reflexivity|lia]|]. destruct (_ && _); [injection E as <- <- <-; repeat (split; [reflexivity|]); eexists; split; [reflexivity|lia]|].
    rewrite D0 in E. injection E as <- <- <-. repeat (split; [reflexivity|]). eexists; split; [reflexivity|lia].
  - unfold connect in E. destruct (Z.ltb_spec fd 0); [injection E as <- <- <-; repeat (split; [reflexivity|]); eexists; split; [reflexivity|lia]|]. rewrite udp_bit, icmp_bit, tcp_bit, unmark_mod in E.
    assert (NT : Z.testbit fd 8 = true -> 4 <= fd mod 256). { intros T. destruct (Z_le_gt_dec 4 (fd mod 256)); [assumption|]. exfalso. apply (ND FTcp (fd mod 256)). unfold designates. cbn [socks]. repeat (split; [first [lia|reflexivity]|]). assumption. }
    assert (NU : Z.testbit fd 8 = false -> Z.testbit fd 9 = true -> 2 <= fd mod 256). { intros T U. destruct (Z_le_gt_dec 2 (fd mod 256)); [assumption|]. exfalso. apply (ND FUdp (fd mod 256)). unfold designates. cbn [socks]. repeat (split; [first [lia|reflexivity|assumption]|]). assumption. }
    assert (NI : Z.testbit fd 8 = false -> Z.testbit fd 9 = false -> Z.testbit fd 10 = true -> 2 <= fd mod 256). { intros T U V. destruct (Z_le_gt_dec 2 (fd mod 256)); [assumption|]. exfalso. apply (ND FIcmp (fd mod 256)). unfold designates. cbn [socks]. repeat (split; [first [lia|reflexivity|assumption]|]). assumption. }
    assert (FIN : forall z, z < 0 -> (st, RZ z, @nil uev) = (st', r, e) -> st' = st /\ e = [] /\ exists z, r = RZ z /\ z < 0). { intros z Hz X. injection X as <- <- <-. repeat (split; [reflexivity|]). exists z. auto. }
    destruct (Z.testbit fd 9) eqn:B9; [|destruct (Z.testbit fd 10) eqn:B10; [|destruct (Z.testbit fd 8) eqn:B8]].
    + destruct (Z.leb_spec (zlen (u_udp st)) (fd mod 256)) as [L|L]; [apply (FIN (-22)); [lia|congruence]|]. exfalso. destruct (Z.testbit fd 8); [specialize (NT eq_refl)|specialize (NU eq_refl eq_refl)]; lia.
    + destruct (Z.leb_spec (zlen (u_icmp st)) (fd mod 256)) as [L|L]; [apply (FIN (-22)); [lia|congruence]|]. exfalso. destruct (Z.testbit fd 8); [specialize (NT eq_refl)|specialize (NI eq_refl eq_refl eq_refl)]; lia.
    + specialize (NT eq_refl). destruct (Z.leb_spec (zlen (u_tcp st)) (fd mod 256)) as [L|L]; [apply (FIN (-22)); [lia|congruence]|lia].
    + apply (FIN (-22)); [lia|congruence].
  - unfold close in E. rewrite D0 in E. injection E as <- <- <-. repeat (split; [reflexivity|]). eexists; split; [reflexivity|lia].
  - unfold setsockopt in E. rewrite D0 in E. injection E as <- <- <-. repeat (split; [reflexivity|]). eexists; split; [reflexivity|lia].
  - unfold sendto in E. rewrite D0 in E. cbn [obind] in E. injection E as <- <- <-. repeat (split; [reflexivity|]). eexists; split; [reflexivity|lia].
  - unfold recvfrom in E. rewrite D0 in E. cbn [obind] in E. injection E as <- <- <-. repeat (split; [reflexivity|]). eexists; split; [reflexivity|lia].
Qed.
Lemma change_bind_other w st fd ip port fo ve r k i u u' : change w st (OBind fd ip port fo ve) r k i u u' -> ~ designates st fd k i -> steady u u'.
Proof.
  intros C ND. inversion C; try assumption; try discriminate.
  match goal with H : OBind _ _ _ _ _ = OBind _ _ _ _ _ |- _ => injection H; intros; subst end. contradiction.
Qed.
(** A successful bind to a port: the address is the host's own, and no other socket of the
    protocol holds that port with an overlapping address. *)
Theorem bind_is_exclusive st w fd ip port fo ve st' e k j t : reached st -> uworld_ok w -> op_in w (OBind fd ip port fo ve) ->
  ustep w st (OBind fd ip port fo ve) = Some (st', RZ 0, e) -> designates st fd k j -> slot st k j t ->
  fo = true /\ ve = false /\ (ip <> 0 -> own w ip) /\
  exists t', slot st' k j t' /\ s_src t' = port /\ s_bound t' = ip /\ (ip <> 0 -> s_local t' = ip) /\
    forall i u, slot st' k i u -> i <> j -> ~ clash t' u.
Proof.
  intros R HW HO E D SL. pose proof (reaches_good _ _ R) as G. pose proof (ustep_table _ _ _ _ _ _ HW HO G E) as TS.
  assert (OK : fo = true /\ ve = false /\ exists t', slot st' k j t' /\ s_src t' = port /\ s_bound t' = ip).
  { cbn [ustep] in E. unfold bind in E. destruct (fd <? 0); [discriminate|]. destruct (_ && _); [discriminate|].
    destruct (decode_spec st fd) as [(x & D0 & XN & _)|(k2 & i & D0 & D2 & _)]; rewrite D0 in E; [injection E as _ -> _; lia|].
    destruct (descriptor_names_one_slot _ _ _ _ _ _ D D2) as (<- & <-). destruct (bind_sock w k (socks st k) j (sock_at (socks st k) j) ip port fo ve) as [t' q] eqn:B. injection E as <- -> _.
    assert (DI : j < zlen (socks st k)) by apply D. assert (J0 : 0 <= j) by apply SL.
    unfold bind_sock in B. destruct (if_for_local_ip w ip) as [ifx ok]. destruct (match k with FTcp => _ | _ => _ end); [discriminate|]. destruct fo; cbn [negb] in B; [|discriminate]. cbv zeta in B.
    destruct (bind_port_in_use _ _ _ _); [discriminate|]. destruct ve; [discriminate|]. injection B as <-. split; [reflexivity|]. split; [reflexivity|]. eexists. split; [split; [assumption|]; rewrite set_socks_same; unfold upd; apply set_nth_same; unfold zlen in DI; lia|]. split; reflexivity. }
  destruct OK as (-> & -> & t1 & S1 & P1 & B1). destruct (TS k j t SL) as (t' & S' & C). assert (t1 = t') by (destruct S1 as (_ & A), S' as (_ & B); congruence). subst t1.
  assert (K : (ip <> 0 -> s_local t' = ip /\ own w ip) /\ (port = 0 \/ forall i u, nth_error (socks st k) i = Some u -> i <> Z.to_nat j -> s_src u = port -> s_local u <> 0 /\ s_local t' <> 0 /\ s_local u <> s_local t')).
  { cbn [ustep] in E. unfold bind in E. destruct (fd <? 0); [discriminate|]. destruct (negb (ip =? 0) && negb (snd (if_for_local_ip w ip))) eqn:OW; [discriminate|].
    destruct (decode_spec st fd) as [(x & D0 & XN & _)|(k2 & i & D0 & D2 & _)]; rewrite D0 in E; [injection E as _ -> _; lia|].
    destruct (descriptor_names_one_slot _ _ _ _ _ _ D D2) as (<- & <-). destruct (bind_sock w k (socks st k) j (sock_at (socks st k) j) ip port true false) as [t2 q] eqn:B. injection E as <- -> _.
    assert (DI : j < zlen (socks st k)) by apply D. assert (J0 : 0 <= j) by apply SL.
    assert (t2 = t'). { destruct S' as (_ & N'). rewrite set_socks_same in N'. unfold upd in N'. rewrite set_nth_same in N' by (unfold zlen in DI; lia). congruence. } subst t2.
    unfold bind_sock in B. destruct (if_for_local_ip w ip) as [ifx ok] eqn:EI. destruct (match k with FTcp => _ | _ => _ end); [discriminate|]. cbn [negb] in B. cbv zeta in B.
    match type of B with context [bind_port_in_use (socks st k) j ?x port] => set (loc := x) in * end.
    destruct (bind_port_in_use (socks st k) j loc port) eqn:IU; [discriminate|]. injection B as <-. cbn [set_bound set_src set_local set_if s_local]. split.
    - intros N0. split; [unfold loc; destruct (Z.eqb_spec ip 0); [contradiction|reflexivity]|]. apply own_if. rewrite EI. destruct (Z.eqb_spec ip 0); [contradiction|]. cbn in OW. cbn [snd]. destruct ok; [reflexivity|discriminate].
    - apply bind_free in IU; [exact IU|assumption]. }
  destruct K as (K1 & K2). split; [reflexivity|]. split; [reflexivity|]. split; [intros N0; apply K1; assumption|].
  exists t'. split; [assumption|]. split; [assumption|]. split; [assumption|]. split; [intros N0; apply K1; assumption|].
  intros i u' (I0 & Nu') NE (C0 & C1 & C2). destruct K2 as [K2|K2]; [congruence|].
  destruct (nth_error (socks st k) (Z.to_nat i)) as [u|] eqn:Nu.
  - destruct (TS k i u ltac:(split; assumption)) as (u2 & (_ & N2) & CU). assert (u2 = u') by congruence. subst u2.
    assert (SU : steady u u') by (eapply change_bind_other; [exact CU|]; intros D3; apply NE; eapply designates_fun; eassumption).
    destruct SU as (_ & SU & LU & _). destruct (K2 _ u Nu ltac:(intros X; apply NE; destruct SL; lia) ltac:(congruence)) as (L1 & L2 & L3). intuition congruence.
  - apply nth_error_None in Nu. assert (Z.to_nat i < length (socks st' k))%nat by (apply nth_error_Some; congruence).
    pose proof (ustep_good _ _ _ _ _ _ HW HO G E) as G'. destruct G as (A1 & A2 & _ & A3 & _), G' as (B1' & B2 & _ & B3 & _). unfold zlen in *. destruct k; cbn [socks] in *; lia.
Qed.
(** With care (see [careful]) ports stay exclusive over any history, in every protocol.
    Partial: without it they do not, see [random_port_taken_refuted],
    [connect_moves_onto_other_refuted]. *)
Theorem ports_stay_exclusive_partial st k : reaches (fun _ st o => careful st o) st -> exclusive (socks st k).
Proof. intros R. apply XI_reaches in R. apply R. Qed.

(** ** C39: multicast membership *)
Theorem member_iff_joined N st i g : lives N st -> multicast g -> member st i g <-> joined_somewhere st i g.
Proof.
  intros L MG. pose proof (lives_MI _ _ L) as H. exact (MI_member N _ _ i g H (multicast_nz _ MG)).
Qed.
(** IP_ADD_MEMBERSHIP: on success the socket has joined, and a report is sent exactly if
    it is the first to do so on that interface; on failure nothing happened. *)
Theorem join_reports_first N st w fd g a st' r e : lives N st -> uworld_ok w -> op_in w (OOpt fd (SJoin g a)) -> joins_open st (OOpt fd (SJoin g a)) ->
  ustep w st (OOpt fd (SJoin g a)) = Some (st', RZ r, e) ->
  (st' = st /\ e = []) \/
  (r = 0 /\ multicast g /\ exists n t t' i, designates st fd FUdp n /\ slot st FUdp n t /\ slot st' FUdp n t' /\ 0 <= i < zlen (w_ifs w) /\
     ~ joined t i g /\ (forall g' i', g' <> 0 -> joined t' i' g' <-> joined t i' g' \/ (g' = g /\ i' = i)) /\ member st' i g /\
     (joined_somewhere st i g -> e = []) /\ (~ joined_somewhere st i g -> reported w i g 2 e)).
Proof.
  intros L HW HO JO E. pose proof (reaches_good _ _ (lives_reached _ _ L)) as G. pose proof (lives_MI _ _ L) as H.
  cbn [ustep] in E. destruct (setsockopt_spec w st fd (SJoin g a) HW G HO) as (st2 & r2 & e2 & E2 & _ & C). rewrite E2 in E. injection E as <- <- <-.
  destruct C as [C|[(k & i & u & x1 & x2 & x3 & x4 & tos & (OS & _) & _)|[(n & g2 & a2 & i & X & D & Hn & MG & RI & _ & J & R0)|(n & g2 & a2 & ifx & sl & X & _)]]]; [left; exact C|destruct OS| |discriminate].
  - injection X as <- <-. right. split; [assumption|]. split; [assumption|].
    destruct J as (s & j & x & m & m' & v & J). cbv zeta in J. destruct J as (J1 & J2 & J3 & J4 & ->).
    assert (HU : 0 <= n < zlen (u_udp st)) by (destruct G as (_ & GU & _); lia).
    exists n, (sock_at (u_udp st) n), (set_mc (set_nth s (g, i) (s_mc (sock_at (u_udp st) n))) (sock_at (u_udp st) n)), i.
    split; [assumption|]. split; [apply (at_slot st FUdp); exact HU|]. split; [split; [lia|]; cbn [socks u_udp]; unfold upd; apply set_nth_same; unfold zlen in HU; lia|].
    split; [assumption|]. split; [assumption|]. split.
    { intros g' i' G0. unfold joined. cbn [set_mc s_mc]. rewrite join_mc by eassumption. tauto. }
    assert (MEM : (exists m0, In m0 (u_mc st) /\ key m0 i g) <-> joined_somewhere st i g) by (exact (MI_member N _ _ i g H (multicast_nz _ MG))).
    split.
    { exists m'. cbn [u_mc]. split; [apply (nth_error_In _ j); apply set_nth_same; apply nth_error_Some; congruence|].
      destruct J4 as [(K & -> & _)|(_ & _ & -> & _)]; [|cbn; repeat split; lia]. destruct (Z.eqb_spec (m_refs m) 255); [exact K|]. cbn [m_group m_if m_refs]. destruct K as (_ & _ & K3).
      pose proof (mi_refs _ _ _ H m (nth_error_In _ _ J3)) as (RF & _). repeat split; lia. }
    split.
    + intros JS. apply MEM in JS. destruct J4 as [(_ & _ & ->)|(NK & _)]; [reflexivity|]. destruct JS as (m0 & I0 & K0). exfalso. exact (NK m0 I0 K0).
    + intros NJ. destruct J4 as [(K & _)|(_ & _ & _ & RP)]; [|exact RP]. exfalso. apply NJ. apply MEM. exists m. split; [eapply nth_error_In; exact J3|exact K].
Qed.
(** ... and it succeeds whenever the socket and the host have a free membership entry. *)
Theorem join_succeeds N st w fd n t g a st' r e : lives N st -> uworld_ok w -> addr32 g -> addr32 a -> multicast g -> a <> 0 -> own w a ->
  designates st fd FUdp n -> slot st FUdp n t -> (exists x, In (0, x) (s_mc t)) -> (exists m, In m (u_mc st) /\ m_refs m = 0) ->
  ustep w st (OOpt fd (SJoin g a)) = Some (st', RZ r, e) -> r = 0 \/ exists i c, conf_of w i c /\ c_ip c = a /\ joined t i g.
Proof.
  intros L HW AG AA MG A0 OW D SL FS FM E. pose proof (reaches_good _ _ (lives_reached _ _ L)) as G. cbn [ustep] in E. unfold setsockopt in E.
  destruct (decode_spec st fd) as [(x & _ & _ & ND)|(k & i & D0 & D2 & RG)]; [exfalso; eapply ND; exact D|]. destruct (descriptor_names_one_slot _ _ _ _ _ _ D D2) as (<- & <-). rewrite D0 in E.
  rewrite udp_bit in E. destruct D as (_ & _ & D & B8 & B9). rewrite B9 in E. cbn [socks] in D.
  assert (MI2 : ip_is_multicast g = true) by (apply multicast_iff; assumption).
  unfold mcast_if_from_addr in E. rewrite MI2 in E. cbn [negb] in E. destruct (Z.eqb_spec a 0); [contradiction|].
  destruct (if_for_local_ip w a) as [ifx ok] eqn:EI. assert (OK : ok = true) by (apply own_if in OW; rewrite EI in OW; exact OW). subst ok.
  destruct (if_local_conf w a ifx HW A0 EI) as (_ & c & CF & CA). pose proof (find_if_range w a ifx EI) as RI. assert (Hn : 0 <= n < 2) by (destruct G as (_ & G2 & _); lia).
  destruct (join_spec w st n g ifx HW G Hn AG ltac:(lia)) as (st2 & r2 & e2 & E2 & _ & SU). rewrite E2 in E. cbn [obind] in E. injection E as <- <- <-.
  destruct SL as (J & Nt). cbn [socks] in Nt. rewrite (sock_at_in _ _ _ J Nt) in SU.
  destruct (has_mcast t ifx g) eqn:HM; [right; exists ifx, c; split; [assumption|split; [assumption|apply has_mcast_iff; assumption]]|].
  left. apply SU; [assumption|lia|intros JJ; apply has_mcast_iff in JJ; congruence|assumption|]. destruct FM as (m & Im & Rm). exists m. auto.
Qed.
(** IP_DROP_MEMBERSHIP: a leave report exactly if no other socket is joined. *)
Theorem leave_reports_last N st w fd g a st' r e : lives N st -> uworld_ok w -> op_in w (OOpt fd (SLeave g a)) ->
  ustep w st (OOpt fd (SLeave g a)) = Some (st', RZ r, e) ->
  (st' = st /\ e = []) \/
  (r = 0 /\ multicast g /\ exists n t t' i, designates st fd FUdp n /\ slot st FUdp n t /\ slot st' FUdp n t' /\ 0 <= i < zlen (w_ifs w) /\
     joined t i g /\ (forall g' i', g' <> 0 -> joined t' i' g' <-> joined t i' g' /\ ~ (g' = g /\ i' = i)) /\
     (joined_somewhere st' i g <-> member st' i g) /\
     (joined_somewhere st' i g -> e = []) /\ (~ joined_somewhere st' i g -> reported w i g 3 e)).
Proof.
  intros L HW HO E. pose proof (reaches_good _ _ (lives_reached _ _ L)) as G. pose proof (lives_MI _ _ L) as H.
  assert (L2 : exists M, MI M (u_udp st') (u_mc st')).
  { cbn [ustep] in E. destruct (setsockopt_spec w st fd (SLeave g a) HW G HO) as (st2 & r2 & e2 & E2 & _ & C). rewrite E2 in E. injection E as <- <- <-.
    destruct C as [(-> & _)|[(k & i & u & x1 & x2 & x3 & x4 & tos & (OS & _) & _)|[(n & g2 & a2 & i & X & _)|(n & g2 & a2 & i & sl & X & D & Hn & MG & RI & _ & J & R0)]]]; [exists N; exact H|destruct OS|discriminate|].
    injection X as <- <-. exists N. eapply MI_leave; eassumption. }
  destruct L2 as (M2 & H2).
  cbn [ustep] in E. destruct (setsockopt_spec w st fd (SLeave g a) HW G HO) as (st2 & r2 & e2 & E2 & _ & C). rewrite E2 in E. injection E as <- <- <-.
  destruct C as [C|[(k & i & u & x1 & x2 & x3 & x4 & tos & (OS & _) & _)|[(n & g2 & a2 & i & X & _)|(n & g2 & a2 & i & sl & X & D & Hn & MG & RI & _ & J & R0)]]]; [left; exact C|destruct OS|discriminate|].
  injection X as <- <-. right. split; [assumption|]. split; [assumption|].
  assert (HU : 0 <= n < zlen (u_udp st)) by (destruct G as (_ & GU & _); lia).
  assert (MEM2 : (exists m0, In m0 (u_mc st2) /\ key m0 i g) <-> joined_somewhere st2 i g) by (exact (MI_member M2 _ _ i g H2 (multicast_nz _ MG))).
  destruct J as (v & l & J). cbv zeta in J. destruct J as (J1 & J2 & ->). set (t := sock_at (u_udp st) n) in *.
  assert (JT : joined t i g) by (exact (nth_error_In _ _ J1)).
  assert (INT : In t (u_udp st)) by (unfold t; eapply nth_error_In; apply at_some; exact HU).
  exists n, t, (set_mc (set_nth sl (0, 0) (s_mc t)) t), i.
  split; [assumption|]. split; [apply (at_slot st FUdp); exact HU|]. split; [split; [lia|]; cbn [socks u_udp]; unfold upd; apply set_nth_same; unfold zlen in HU; lia|].
  split; [assumption|]. split; [assumption|]. split.
  { intros g' i' G0. unfold joined. cbn [set_mc s_mc]. apply leave_mc; [assumption| |assumption]. intros b1 b2 m. apply (mi_once _ _ _ H t b1 b2 m INT). }
  split; [symmetry; exact MEM2|].
  destruct J2 as [(NK & _)|(j & m & Nj & K & J2)].
  { exfalso. destruct (proj2 (MI_member N _ _ i g H (multicast_nz _ MG))) as (m & Im & Km); [exists t; split; assumption|]. exact (NK m Im Km). }
  pose proof (mi_refs _ _ _ H m (nth_error_In _ _ Nj)) as (RF & _).
  destruct J2 as [(R1 & EL & RP)|(R1 & EL & ->)]; rewrite EL in *; cbn [u_mc] in MEM2.
  - split; [|intros _; exact RP]. intros JS. exfalso. apply MEM2 in JS. destruct JS as (m0 & I0 & K0). apply In_nth_error in I0 as (b & N0). apply nth_set in N0 as [(-> & ->)|(NE & N0)].
    + destruct K0 as (_ & _ & K0). cbn in K0. congruence.
    + apply NE. eapply (mi_unique _ _ _ H); eassumption.
  - split; [reflexivity|]. intros NJ. exfalso. apply NJ. apply MEM2. exists (mkM g i (m_refs m - 1) (m_tmr m)). split; [apply (nth_error_In _ j); apply set_nth_same; apply nth_error_Some; congruence|].
    destruct K as (_ & _ & K3). unfold key. cbn [m_group m_if m_refs]. repeat split; lia.
Qed.
(** close() leaves every group the socket had joined, reporting those nobody else is in. *)
Theorem close_leaves_all N st w fd n t st' r e : lives N st -> N <= zlen (w_ifs w) -> uworld_ok w -> designates st fd FUdp n -> slot st FUdp n t -> s_open t = true ->
  ustep w st (OClose fd) = Some (st', r, e) ->
  r = RZ 0 /\ slot st' FUdp n sock0 /\ (forall j u, slot st FUdp j u -> j <> n -> slot st' FUdp j u) /\
  (forall i g, multicast g -> member st' i g <-> exists j u, slot st FUdp j u /\ j <> n /\ joined u i g) /\
  (forall x, In x e -> exists g i f, x = UIgmp i f /\ igmp_report w i g 3 f /\ joined t i g /\ forall j u, slot st FUdp j u -> j <> n -> ~ joined u i g) /\
  (forall g i, multicast g -> joined t i g -> (forall j u, slot st FUdp j u -> j <> n -> ~ joined u i g) -> exists e', reported w i g 3 e' /\ incl e' e).
Proof.
  intros L LE HW D SL OP E. pose proof (reaches_good _ _ (lives_reached _ _ L)) as G. pose proof (MI_more _ _ _ _ LE (lives_MI _ _ L)) as H.
  pose proof (lives_MI _ _ (li_step N w st (OClose fd) st' r e L LE HW I I E)) as H2.
  cbn [ustep] in E. unfold close in E.
  destruct (decode_spec st fd) as [(x & _ & _ & ND)|(k & i & D0 & D2 & RG)]; [exfalso; eapply ND; exact D|]. destruct (descriptor_names_one_slot _ _ _ _ _ _ D D2) as (<- & <-). rewrite D0 in E.
  destruct SL as (J & Nt). cbn [socks] in Nt. pose proof (sock_at_in _ _ _ J Nt) as Et. rewrite Et, OP in E.
  assert (HU : 0 <= n < zlen (u_udp st)) by (destruct D as (_ & _ & X & _); cbn [socks] in X; lia). assert (Hn : 0 <= n < 2) by (destruct G as (_ & GU & _); lia).
  destruct (drop_all_spec (zlen (w_ifs w)) w n HW eq_refl Hn 4 st 0%nat G H eq_refl ltac:(intros; lia)) as (st1 & e1 & E1 & G1 & H1 & _ & _ & OT & AL & EV & EC). rewrite E1 in E. cbn [obind] in E. injection E as <- <- <-.
  assert (LON : forall i g, lonely (u_udp st) n i g <-> forall j u, slot st FUdp j u -> j <> n -> ~ joined u i g).
  { intros i g. unfold lonely. split.
    - intros X j u (J2 & Nu) NE. apply (X (Z.to_nat j) u); [assumption|lia].
    - intros X j u Nu NE. apply (X (Z.of_nat j) u); [split; [lia|cbn [socks]; rewrite Nat2Z.id; assumption]|lia]. }
  assert (OTH : forall j u, slot st FUdp j u -> j <> n -> slot (with_udp st1 (upd (u_udp st1) n sock0)) FUdp j u).
  { intros j u (J2 & Nu) NE. split; [assumption|]. cbn [socks u_udp with_udp] in *. rewrite upd_other by lia. rewrite OT by lia. assumption. }
  split; [reflexivity|]. split. { split; [assumption|]. cbn [socks u_udp with_udp]. unfold upd. apply set_nth_same. destruct G1 as (_ & GU1 & _). unfold zlen in GU1. lia. }
  split; [exact OTH|]. split; [|split].
  - intros i g MG. transitivity (joined_somewhere (with_udp st1 (upd (u_udp st1) n sock0)) i g); [exact (MI_member _ _ _ i g H2 (multicast_nz _ MG))|]. split.
    + intros (u & Iu & Ju). apply In_nth_error in Iu as (j & Nu). cbn [u_udp with_udp] in Nu. unfold upd in Nu. apply nth_set in Nu as [(-> & ->)|(NE & Nu)].
      * exfalso. apply multicast_nz in MG. unfold joined in Ju. cbn in Ju. intuition congruence.
      * exists (Z.of_nat j), u. rewrite OT in Nu by assumption. split; [split; [lia|]; cbn [socks]; rewrite Nat2Z.id; assumption|]. split; [lia|assumption].
    + intros (j & u & SU & NE & Ju). exists u. split; [|assumption]. destruct (OTH j u SU NE) as (_ & Nu). eapply nth_error_In. exact Nu.
  - intros x Hx. destruct (EV x Hx) as (g & i & f & X1 & X2 & _ & X4 & X5). rewrite Et in X4. exists g, i, f. split; [exact X1|]. split; [exact X2|]. split; [exact X4|]. apply (proj1 (LON i g)). exact X5.
  - intros g i MG Jt X. apply (EC g i MG); [rewrite Et; exact Jt|exact (proj2 (LON i g) X)].
Qed.
(** A membership query arms a report timer of a group exactly if the host is a member of
    it on the interface the query came in on, and changes nothing else. *)
Theorem query_arms_members st w i f ins st' r e : reached st -> uworld_ok w -> op_in w (OIgmp i f ins) -> ustep w st (OIgmp i f ins) = Some (st', r, e) ->
  e = [] /\ u_tcp st' = u_tcp st /\ u_udp st' = u_udp st /\ u_icmp st' = u_icmp st /\
  forall k m, nth_error (u_mc st) k = Some m -> exists m', nth_error (u_mc st') k = Some m' /\ same_entry m m' /\
    ((asked f i m /\ m_tmr m = false /\ m_tmr m' = ins k) \/ (~ (asked f i m /\ m_tmr m = false) /\ m' = m)).
Proof.
  intros R HW HO E. cbn [ustep op_in] in *. destruct HO as (F & _). destruct (igmp_input_spec st i f ins (reaches_good _ _ R) F) as (st2 & E2 & _ & ET & EU & EI & EM & EK). rewrite E2 in E. cbn [obind] in E. injection E as <- <- <-.
  repeat (split; [first [reflexivity|assumption]|]). intros k m N. destruct (EK k m N) as (m' & N' & C). exists m'. split; [assumption|]. split; [|exact C]. destruct (F2_nth _ _ _ EM _ _ N) as (m2 & N2 & S). assert (m2 = m') by congruence. subst. exact S.
Qed.
(** A firing timer reports the group it was armed for, if the host is still a member. *)
Theorem timer_reports_member st w j st' r e : reached st -> uworld_ok w -> ustep w st (OTimer j) = Some (st', r, e) ->
  u_tcp st' = u_tcp st /\ u_udp st' = u_udp st /\ u_icmp st' = u_icmp st /\ Forall2 same_entry (u_mc st) (u_mc st') /\
  (e = [] \/ exists m, nth_error (u_mc st) j = Some m /\ m_tmr m = true /\ m_refs m <> 0 /\ multicast (m_group m) /\ reported w (m_if m) (m_group m) 2 e) /\
  (forall m, nth_error (u_mc st) j = Some m -> m_tmr m = true -> m_refs m <> 0 -> multicast (m_group m) -> reported w (m_if m) (m_group m) 2 e).
Proof.
  intros R HW E. cbn [ustep] in *. destruct (igmp_timer_spec w st j HW (reaches_good _ _ R)) as (st2 & e2 & E2 & _ & X). rewrite E2 in E. cbn [obind] in E. injection E as <- <- <-. exact X.
Qed.

(** ** C62: sending *)
(** The options a datagram is sent with are those set last. *)
Theorem setsockopt_exact st w fd s st' r e : reached st -> uworld_ok w -> op_in w (OOpt fd s) -> (forall g a, s <> SJoin g a /\ s <> SLeave g a) ->
  ustep w st (OOpt fd s) = Some (st', RZ r, e) -> e = [] /\
  (st' = st \/ exists k i t t' a b c d tos, designates st fd k i /\ slot st k i t /\ slot st' k i t' /\ opt_sets w s t a b c d tos /\
     t' = set_mopt a b c d tos t /\ (forall k' j u, slot st k' j u -> (k' <> k \/ j <> i) -> slot st' k' j u)).
Proof.
  intros R HW HO NJ E. pose proof (reaches_good _ _ R) as G. cbn [ustep] in E. destruct (setsockopt_spec w st fd s HW G) as (st2 & r2 & e2 & E2 & _ & C); [destruct s; exact HO|]. rewrite E2 in E. injection E as <- <- <-.
  destruct C as [(-> & ->)|[(k & i & t & a & b & c & d & tos & (OS & D) & -> & Hi & Et & ->)|[(n & g2 & a2 & i & X & _)|(n & g2 & a2 & i & sl & X & _)]]]; [auto| |exfalso; exact (proj1 (NJ g2 a2) X)|exfalso; exact (proj2 (NJ g2 a2) X)].
  split; [reflexivity|]. right. exists k, i, t, (set_mopt a b c d tos t), a, b, c, d, tos. split; [assumption|]. split; [split; [lia|]; rewrite <- Et; apply at_some; assumption|].
  split; [split; [lia|]; rewrite set_socks_same; unfold upd; apply set_nth_same; unfold zlen in Hi; lia|]. split; [assumption|]. split; [reflexivity|].
  intros k' j u (J & Nj) NE. split; [assumption|]. rewrite socks_set. destruct k, k'; try exact Nj; rewrite upd_other; try exact Nj; try lia; destruct NE as [NE|NE]; congruence || (intros X; apply NE; congruence).
Qed.
(** sendto() queues one well-formed datagram with exactly the given bytes from the socket's
    address and port to the destination and returns their number, or queues nothing; it
    refuses only a closed socket, a missing destination, too long data or a full buffer. *)
Theorem sendto_queues_exactly st w fd to b rnd n t st' r e : reached st -> uworld_ok w -> op_in w (OSend fd to b rnd) -> designates st fd FUdp n -> slot st FUdp n t ->
  ustep w st (OSend fd to b rnd) = Some (st', r, e) ->
  e = [] /\ exists t' z, r = RZ z /\ slot st' FUdp n t' /\ sent_udp w t to b t' z /\ (forall k j u, slot st k j u -> (k <> FUdp \/ j <> n) -> slot st' k j u).
Proof.
  intros R HW HO D SL E. pose proof (reaches_good _ _ R) as G. cbn [ustep op_in] in *. unfold sendto in E.
  destruct (decode_spec st fd) as [(x & _ & _ & ND)|(k & i & D0 & D2 & RG)]; [exfalso; eapply ND; exact D|]. destruct (descriptor_names_one_slot _ _ _ _ _ _ D D2) as (<- & <-). rewrite D0 in E.
  destruct SL as (J & Nt). cbn [socks] in Nt. pose proof (sock_at_in _ _ _ J Nt) as Et. rewrite Et in E. destruct HO as (B & T).
  assert (HU : 0 <= n < zlen (u_udp st)) by (destruct D as (_ & _ & X & _); cbn [socks] in X; lia).
  destruct (sendto_udp_spec w (u_id st) t to b rnd HW ltac:(rewrite <- Et; exact (slot_at st FUdp n G HU)) B T) as (t' & id & z & E1 & _ & S). rewrite E1 in E. cbn [obind] in E. injection E as <- <- <-.
  split; [reflexivity|]. exists t', z. split; [reflexivity|]. split; [split; [assumption|]; cbn [socks u_udp with_udp with_id]; unfold upd; apply set_nth_same; unfold zlen in HU; lia|]. split; [exact S|].
  intros k j u (J2 & Nu) NE. split; [assumption|]. destruct k; try exact Nu. cbn [socks u_udp with_udp with_id] in *. rewrite upd_other; [assumption|lia|lia|]. intros <-. destruct NE as [NE|NE]; apply NE; reflexivity.
Qed.
Theorem sendto_icmp_queues_exactly st w fd to b rnd n t st' r e : reached st -> uworld_ok w -> op_in w (OSend fd to b rnd) -> designates st fd FIcmp n -> slot st FIcmp n t ->
  ustep w st (OSend fd to b rnd) = Some (st', r, e) ->
  e = [] /\ exists t' z, r = RZ z /\ slot st' FIcmp n t' /\ sent_icmp w t to b t' z /\ (forall k j u, slot st k j u -> (k <> FIcmp \/ j <> n) -> slot st' k j u).
Proof.
  intros R HW HO D SL E. pose proof (reaches_good _ _ R) as G. cbn [ustep op_in] in *. unfold sendto in E.
  destruct (decode_spec st fd) as [(x & _ & _ & ND)|(k & i & D0 & D2 & RG)]; [exfalso; eapply ND; exact D|]. destruct (descriptor_names_one_slot _ _ _ _ _ _ D D2) as (<- & <-). rewrite D0 in E.
  destruct SL as (J & Nt). cbn [socks] in Nt. pose proof (sock_at_in _ _ _ J Nt) as Et. rewrite Et in E. destruct HO as (B & T).
  assert (HU : 0 <= n < zlen (u_icmp st)) by (destruct D as (_ & _ & X & _); cbn [socks] in X; lia).
  destruct (sendto_icmp_spec w (u_id st) t to b rnd HW ltac:(rewrite <- Et; exact (slot_at st FIcmp n G HU)) B T) as (t' & id & z & E1 & _ & S). rewrite E1 in E. cbn [obind] in E. injection E as <- <- <-.
  split; [reflexivity|]. exists t', z. split; [reflexivity|]. split; [split; [assumption|]; cbn [socks u_icmp with_icmp with_id]; unfold upd; apply set_nth_same; unfold zlen in HU; lia|]. split; [exact S|].
  intros k j u (J2 & Nu) NE. split; [assumption|]. destruct k; try exact Nu. cbn [socks u_icmp with_icmp with_id] in *. rewrite upd_other; [assumption|lia|lia|]. intros <-. destruct NE as [NE|NE]; apply NE; reflexivity.
Qed.
(** The poll loop transmits, per socket, a prefix of its queue in order, unaltered but for
    the link header, and keeps the rest; everything if nothing stands in the way.  What it
    transmits to a group with looping on comes back to exactly the local sockets that
    asked for it. *)
Theorem flush_transmits_in_order st w o st' r e : reached st -> uworld_ok w -> op_in w (OFlush o) -> ustep w st (OFlush o) = Some (st', r, e) ->
  exists p0 p1 p2 p3, transmitted e = p0 ++ p1 ++ p2 ++ p3 /\ quiet e /\ Forall (fun x => on_wire w (known o) (fst x) (snd x)) (transmitted e) /\
    u_tcp st' = u_tcp st /\ u_mc st' = u_mc st /\
    (forall j t, nth_error (u_udp st) j = Some t -> exists t', nth_error (u_udp st') j = Some t' /\
       fed w (tags (u_udp st) [p0; p1]) t t' /\ Forall2 carries (map snd (nth j [p0; p1] []) ++ contents (s_tx t')) (contents (s_tx t)) /\
       (open_road w o t -> contents (s_tx t') = [])) /\
    (forall j t, nth_error (u_icmp st) j = Some t -> exists t', nth_error (u_icmp st') j = Some t' /\
       calm t t' /\ s_rx t' = s_rx t /\ s_ttl t' = s_ttl t /\ Forall2 carries (map snd (nth j [p2; p3] []) ++ contents (s_tx t')) (contents (s_tx t)) /\
       (open_road w o t -> contents (s_tx t') = [])).
Proof.
  intros R HW HO E. cbn [ustep op_in] in *. destruct (flush_spec w o st HW HO (reaches_good _ _ R)) as (st2 & e2 & p0 & p1 & p2 & p3 & E2 & Q & ET & OWR & _ & T1 & M1 & U & I). rewrite E2 in E. cbn [obind] in E. injection E as <- <- <-.
  exists p0, p1, p2, p3. auto 10.
Qed.

(** ** C63: ICMP *)
Theorem icmp_demux_exact st w i f st' r e : reached st -> uworld_ok w -> op_in w (OIcmp i f) -> ustep w st (OIcmp i f) = Some (st', r, e) ->
  u_tcp st' = u_tcp st /\ u_udp st' = u_udp st /\ u_mc st' = u_mc st /\
  Forall2 (fun t t' => (valid_icmp f /\ w_frecv w i f = false /\ icmp_for_sockets w f /\ icmp_wants f t /\ handed t f t') \/
                       (~ (valid_icmp f /\ w_frecv w i f = false /\ icmp_for_sockets w f /\ icmp_wants f t) /\ t' = t)) (u_icmp st) (u_icmp st') /\
  (e = [] \/ (e = [UTcpErr f] /\ valid_icmp f /\ w_frecv w i f = false /\ zget f 34 <> 0 /\ ~ answers_echo w f) \/
   exists g, e = [UEcho i g] /\ echo_answer w i f g /\ valid_icmp f /\ w_frecv w i f = false /\ answers_echo w f /\ for_our_unicast w f) /\
  (valid_icmp f -> w_frecv w i f = false -> answers_echo w f -> for_our_unicast w f -> (forall g, w_fsend w i g = false) -> zlen f <= w_mtu w i -> e <> []).
Proof.
  intros R HW HO E. cbn [ustep op_in] in *. destruct HO as (F & I & Z9). destruct (icmp_input_spec w st i f HW (reaches_good _ _ R) I F (fr69 f Z9)) as (st2 & e2 & E2 & _ & X). rewrite E2 in E. cbn [obind] in E. injection E as <- <- <-. exact X.
Qed.
Theorem icmp_recvfrom_returns_oldest st w fd blen j t st' r e : reached st -> uworld_ok w -> designates st fd FIcmp j -> slot st FIcmp j t ->
  ustep w st (ORecv fd blen) = Some (st', r, e) ->
  exists t', slot st' FIcmp j t' /\
  match contents (s_rx t) with
  | [] => r = RZ (-11) /\ contents (s_rx t') = []
  | f :: q => contents (s_rx t') = q /\ (zlen (message f) <= blen -> r = RData (message f) (src f) 0) /\ (blen < zlen (message f) -> r = RZ (-1))
  end.
Proof.
  intros R HW D SL E. pose proof (reaches_good _ _ R) as G. cbn [ustep] in E. unfold recvfrom in E.
  destruct (decode_spec st fd) as [(x & _ & _ & ND)|(k & i & D0 & D2 & RG)]; [exfalso; eapply ND; exact D|]. destruct (descriptor_names_one_slot _ _ _ _ _ _ D D2) as (<- & <-). rewrite D0 in E.
  destruct SL as (J & N). cbn [socks] in N. assert (Et : sock_at (u_icmp st) j = t) by (apply sock_at_in; assumption). rewrite Et in E.
  destruct (recv_icmp_spec t blen) as (t1 & q & E1 & S & C & EV). { rewrite <- Et. apply (slot_at st FIcmp j G). apply slot_in with (t := t). split; assumption. }
  rewrite E1 in E. cbn [obind] in E. injection E as <- <- <-. exists t1. split; [|exact EV]. split; [assumption|]. cbn [socks u_icmp with_icmp]. unfold upd. apply set_nth_same. apply nth_error_Some. congruence.
Qed.

Print Assumptions udp_histories_defined.
Print Assumptions udp_operation_defined.
Print Assumptions udp_demux_exact.
Print Assumptions recvfrom_returns_oldest.
Print Assumptions udp_reads_what_arrived.
Print Assumptions udp_nothing_lost.
Print Assumptions descriptor_names_one_slot.
Print Assumptions descriptor_of_slot.
Print Assumptions socket_opens_a_free_slot.
Print Assumptions open_until_closed.
Print Assumptions bad_descriptor_no_effect.
Print Assumptions bind_is_exclusive.
Print Assumptions ports_stay_exclusive_partial.
Print Assumptions member_iff_joined.
Print Assumptions join_reports_first.
Print Assumptions join_succeeds.
Print Assumptions leave_reports_last.
Print Assumptions close_leaves_all.
Print Assumptions query_arms_members.
Print Assumptions timer_reports_member.
Print Assumptions setsockopt_exact.
Print Assumptions sendto_queues_exactly.
Print Assumptions sendto_icmp_queues_exactly.
Print Assumptions flush_transmits_in_order.
Print Assumptions icmp_demux_exact.
Print Assumptions icmp_recvfrom_returns_oldest.
