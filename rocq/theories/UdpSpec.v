(** What datagram sockets promise, in terms of packets and socket attributes. *)
From Verif Require Import Base Checksum ChecksumProps Route Arp Fifo Forward ForwardSpec RouteProps Udp UdpFifo.

(** ** UDP datagrams (RFC 768) in an Ethernet frame with a 20-byte IP header *)
Definition sport (f : list Z) : Z := word f 34.
Definition dport (f : list Z) : Z := word f 36.
Definition ulen (f : list Z) : Z := word f 38.
Definition payload (f : list Z) : list Z := part f 42 (ulen f - 8).
Definition pseudo_header (f : list Z) : list Z := part f 26 8 ++ [0; 17] ++ part f 38 2.
Definition valid_udp (f : list Z) : Prop :=
  42 <= zlen f /\ 14 + total f <= zlen f /\ 8 <= ulen f <= total f - 20 /\
  (word f 40 <> 0 -> ones_complement_valid (pseudo_header f ++ part f 34 (ulen f))).

(** Socket [t] asked for datagram [f] arriving on interface [i]. *)
Definition joined (t : sock) (i g : Z) : Prop := In (g, i) (s_mc t).
Definition wants (w : world) (i : Z) (f : list Z) (t : sock) : Prop :=
  s_src t = dport f /\
  ((multicast (dst f) /\ joined t i (dst f) /\
    (s_conn t = true -> s_remote t = 0 \/ s_remote t = src f \/ s_remote t = dst f)) \/
   (~ multicast (dst f) /\ s_local t = dst f /\
    (s_conn t = true -> (s_dst t = 0 \/ s_dst t = sport f) /\ (s_remote t = 0 \/ s_remote t = src f))) \/
   (~ multicast (dst f) /\ s_local t = 0 /\ w_dhcp w = true)).

(** Everything but the receive queue, the interface note and the last TTL. *)
Definition same_attr (t t' : sock) : Prop :=
  s_open t' = s_open t /\ s_closed t' = s_closed t /\ s_local t' = s_local t /\ s_bound t' = s_bound t /\ s_src t' = s_src t /\
  s_remote t' = s_remote t /\ s_dst t' = s_dst t /\ s_conn t' = s_conn t /\ s_tx t' = s_tx t /\ s_mc t' = s_mc t /\
  s_mttl t' = s_mttl t /\ s_mloop t' = s_mloop t /\ s_mifset t' = s_mifset t /\ s_mif t' = s_mif t /\ s_tos t' = s_tos t.
(** [t'] is [t] after the stack handed it [f]. *)
Definition handed (t : sock) (f : list Z) (t' : sock) : Prop :=
  same_attr t t' /\ enqueued (s_rx t) f (s_rx t') /\
  (fifo_can_push_len (s_rx t) (zlen f) = true -> s_ttl t' = ttl f).

(** An ICMP port unreachable message about [f], sent by interface [i]. *)
Definition port_unreachable (w : world) (i : Z) (f g : list Z) : Prop :=
  exists x, nth_error (w_ifs w) (Z.to_nat i) = Some x /\
  zlen g = 70 /\ zget g 14 = 69 /\ total g = 56 /\ word g 20 = 16384 /\ ttl g = 64 /\ proto g = 1 /\
  src g = c_ip (i_conf x) /\ dst g = src f /\ zget g 15 = zget f 15 /\
  ones_complement_valid (part g 14 20) /\ ones_complement_valid (part g 34 36) /\
  zget g 34 = 3 /\ zget g 35 = 3 /\ part g 42 28 = part f 14 28 /\
  (i_noneth x = false -> part g 0 6 = part f 6 6 /\ part g 6 6 = i_mac x /\ word g 12 = 2048).
(** A datagram that may be answered with an ICMP error: from one host to one of our addresses. *)
Definition unicast_to_us (w : world) (f : list Z) : Prop :=
  dst f <> 0 /\ src f <> 0 /\ ~ broadcast w (dst f) /\ ~ broadcast w (src f) /\ ~ multicast (dst f) /\ ~ multicast (src f) /\ own w (dst f).

(** ** Sending *)
(** [f] (link header not yet filled in) is the datagram carrying [b] from the socket's
    address and port to its peer. *)
Definition datagram_of (t : sock) (b f : list Z) : Prop :=
  zlen f = 42 + zlen b /\ zget f 14 = 69 /\ total f = 28 + zlen b /\ word f 20 = 0 /\ proto f = 17 /\
  src f = s_local t /\ dst f = s_remote t /\ sport f = s_src t /\ dport f = s_dst t /\
  zget f 15 = s_tos t /\ (multicast (s_remote t) -> ttl f = s_mttl t) /\ (~ multicast (s_remote t) -> ttl f = 64) /\
  ones_complement_valid (part f 14 20) /\ word f 40 <> 0 /\ valid_udp f /\ payload f = b.
(** the same for an ICMP message; an echo request gets the socket's identifier and a checksum *)
Definition message_of (t : sock) (b f : list Z) : Prop :=
  zlen f = 34 + zlen b /\ zget f 14 = 69 /\ total f = 20 + zlen b /\ word f 20 = 0 /\ proto f = 1 /\
  src f = s_local t /\ dst f = s_remote t /\ zget f 15 = s_tos t /\ ttl f = 64 /\
  ones_complement_valid (part f 14 20) /\ ones_complement_valid (part f 34 (zlen b)) /\
  (forall k, 0 <= k < zlen b -> k <> 2 -> k <> 3 -> (zget b 0 = 8 -> k <> 4 /\ k <> 5) -> zget f (34 + k) = zget b k) /\
  (zget b 0 = 8 -> word f 38 = s_src t).

(** The socket's interface cannot carry an IP packet with [h] bytes of headers and [n] bytes of data. *)
Definition too_long (w : world) (t : sock) (h n : Z) : Prop :=
  let mtu := w_mtu w (if s_if t <? zlen (w_ifs w) then s_if t else 0) in 1500 < h + n \/ mtu < 14 + h + n \/ mtu <= 14 + h.
(** A frame as transmitted: the queued packet with the link header filled in. *)
Definition carries (g f : list Z) : Prop := zlen g = zlen f /\ skipn 14 g = skipn 14 f.

(** The socket's attributes, its queues, interface note and last TTL aside. *)
Definition calm (t t' : sock) : Prop :=
  s_open t' = s_open t /\ s_closed t' = s_closed t /\ s_local t' = s_local t /\ s_bound t' = s_bound t /\ s_src t' = s_src t /\
  s_remote t' = s_remote t /\ s_dst t' = s_dst t /\ s_conn t' = s_conn t /\ s_mc t' = s_mc t /\
  s_mttl t' = s_mttl t /\ s_mloop t' = s_mloop t /\ s_mifset t' = s_mifset t /\ s_mif t' = s_mif t /\ s_tos t' = s_tos t.
(** [g] goes out on interface [i] with the socket's IP_MULTICAST_LOOP option set to
    [b]; [t'] is another (or the same) local socket [t] afterwards. *)
Definition looped (w : world) (b : bool) (i : Z) (g : list Z) (t t' : sock) : Prop :=
  calm t t' /\
  ((b = true /\ multicast (dst g) /\ valid_udp g /\ w_frecv w i g = false /\ wants w i g t /\
    enqueued (s_rx t) g (s_rx t') /\ (fifo_can_push_len (s_rx t) (zlen g) = true -> s_ttl t' = ttl g)) \/
   (~ (b = true /\ multicast (dst g) /\ valid_udp g /\ w_frecv w i g = false /\ wants w i g t) /\ s_rx t' = s_rx t /\ s_ttl t' = s_ttl t)).
Inductive fed (w : world) : list (bool * (Z * list Z)) -> sock -> sock -> Prop :=
| fed_nil t t' : calm t t' -> s_rx t' = s_rx t -> s_ttl t' = s_ttl t -> fed w [] t t'
| fed_cons b i g es t t1 t' : looped w b i g t t1 -> fed w es t1 t' -> fed w ((b, (i, g)) :: es) t t'.
(** A frame the driver of interface [i] was given: within its MTU, not filtered,
    addressed to the neighbour [arp] knows, a group, everybody or the loopback itself. *)
Definition on_wire (w : world) (arp : list Z -> Prop) (i : Z) (g : list Z) : Prop :=
  exists x, nth_error (w_ifs w) (Z.to_nat i) = Some x /\ zlen g <= w_mtu w i /\ w_fsend w i g = false /\
  (i_noneth x = false ->
     part g 6 6 = i_mac x /\ word g 12 = 2048 /\
     ((is_loop w i /\ part g 0 6 = i_mac x) \/ ((exists nh, broadcast w nh) /\ part g 0 6 = repeat 255 6) \/
      (multicast (dst g) /\ part g 0 6 = [1; 0; 94; zget g 31 mod 128; zget g 32; zget g 33]) \/ arp (part g 0 6))).
(** The frames among the events, with their interfaces. *)
Fixpoint transmitted (e : list uev) : list (Z * list Z) :=
  match e with [] => [] | UTx i g :: e => (i, g) :: transmitted e | _ :: e => transmitted e end.

(** ** ICMP echo *)
Definition echo_answer (w : world) (i : Z) (f g : list Z) : Prop :=
  exists x, nth_error (w_ifs w) (Z.to_nat i) = Some x /\
  zlen g = zlen f /\ zget g 14 = zget f 14 /\ zget g 15 = zget f 15 /\ total g = total f /\ word g 20 = 16384 /\ ttl g = 64 /\ proto g = proto f /\
  src g = dst f /\ dst g = src f /\ zget g 34 = 0 /\ zget g 35 = 0 /\
  (forall k, 38 <= k < zlen f -> zget g k = zget f k) /\
  ones_complement_valid (part g 14 20) /\ ones_complement_valid (part g 34 (total f - 20)) /\
  (i_noneth x = false -> part g 0 6 = part f 6 6 /\ part g 6 6 = i_mac x /\ word g 12 = 2048).
Definition valid_icmp (f : list Z) : Prop :=
  42 <= zlen f /\ 28 <= total f /\ 14 + total f <= zlen f /\ ones_complement_valid (part f 34 (total f - 20)).
(** An ICMP socket accepts a message: every attribute it has set agrees. *)
Definition icmp_wants (f : list Z) (t : sock) : Prop :=
  s_open t = true /\ (s_local t = 0 \/ s_local t = dst f) /\ (s_src t = 0 \/ s_src t = word f 38) /\ (s_remote t = 0 \/ s_remote t = src f).

(** Which ICMP messages sockets may see: echo replies to one of our unicast
    addresses, and everything else but the echo requests the host itself answers. *)
Definition answers_echo (w : world) (f : list Z) : Prop := zget f 34 = 8 /\ w_dhcp w = false.
Definition for_our_unicast (w : world) (f : list Z) : Prop := own w (dst f) /\ ~ broadcast w (dst f) /\ ~ multicast (dst f).
Definition icmp_for_sockets (w : world) (f : list Z) : Prop :=
  (zget f 34 = 0 /\ for_our_unicast w f) \/ (zget f 34 <> 0 /\ ~ answers_echo w f).

(** ** Descriptors: the family bit and the slot number in the low byte *)
Definition fd_of (k : fam) (i : Z) : Z := mark k + i.
Definition designates (st : ust) (fd : Z) (k : fam) (i : Z) : Prop :=
  0 <= fd /\ i = fd mod 256 /\ i < zlen (socks st k) /\
  match k with
  | FTcp => Z.testbit fd 8 = true
  | FUdp => Z.testbit fd 8 = false /\ Z.testbit fd 9 = true
  | FIcmp => Z.testbit fd 8 = false /\ Z.testbit fd 9 = false /\ Z.testbit fd 10 = true
  end.
Definition slot (st : ust) (k : fam) (i : Z) (t : sock) : Prop := 0 <= i /\ nth_error (socks st k) (Z.to_nat i) = Some t.

(** Two sockets claim the same port with overlapping addresses. *)
Definition clash (t u : sock) : Prop :=
  s_src t <> 0 /\ s_src t = s_src u /\ (s_local t = 0 \/ s_local u = 0 \/ s_local t = s_local u).
Definition exclusive (l : list sock) : Prop :=
  forall i j t u, nth_error l i = Some t -> nth_error l j = Some u -> i <> j -> ~ clash t u.

(** ** Multicast *)
Definition member (st : ust) (i g : Z) : Prop := exists m, In m (u_mc st) /\ m_group m = g /\ m_if m = i /\ m_refs m <> 0.
Definition joined_somewhere (st : ust) (i g : Z) : Prop := exists t, In t (u_udp st) /\ joined t i g.
(** An IGMPv3 report with one group record of type [rec] for [g], sent on interface [i] (RFC 3376). *)
Definition igmp_report (w : world) (i g rec : Z) (f : list Z) : Prop :=
  exists x, nth_error (w_ifs w) (Z.to_nat i) = Some x /\
  zlen f = 54 /\ zget f 14 = 70 /\ total f = 40 /\ ttl f = 1 /\ proto f = 2 /\ src f = c_ip (i_conf x) /\ dst f = 3758096406 /\
  part f 34 4 = [148; 4; 0; 0] /\ ones_complement_valid (part f 14 24) /\
  zget f 38 = 34 /\ word f 44 = 1 /\ zget f 46 = rec /\ addr f 50 = g /\ ones_complement_valid (part f 38 16) /\
  (i_noneth x = false -> part f 0 6 = [1; 0; 94; 0; 0; 22] /\ part f 6 6 = i_mac x /\ word f 12 = 2048).

(** ** Results of the operations *)
Definition message (f : list Z) : list Z := part f 34 (total f - 20).
(** What sending does not touch. *)
Definition same_config (t t' : sock) : Prop :=
  s_open t' = s_open t /\ s_closed t' = s_closed t /\ s_bound t' = s_bound t /\ s_conn t' = s_conn t /\ s_rx t' = s_rx t /\ s_mc t' = s_mc t /\
  s_mttl t' = s_mttl t /\ s_mloop t' = s_mloop t /\ s_mifset t' = s_mifset t /\ s_mif t' = s_mif t /\ s_tos t' = s_tos t /\ s_ttl t' = s_ttl t.
Definition sent_udp (w : world) (t : sock) (to : option (Z * Z)) (b : list Z) (t' : sock) (r : Z) : Prop :=
  same_config t t' /\ (s_src t <> 0 -> s_src t' = s_src t) /\ (s_local t <> 0 -> s_local t' = s_local t) /\
  (match to with Some (ip, p) => s_remote t' = ip /\ s_dst t' = p | None => s_remote t' = s_remote t /\ s_dst t' = s_dst t end) /\
  ((r = zlen b /\ s_open t = true /\ fifo_can_push_len (s_tx t) (42 + zlen b) = true /\ exists f, datagram_of t' b f /\ enqueued (s_tx t) f (s_tx t')) \/
   (r = -1 /\ s_tx t' = s_tx t /\ (s_dst t' = 0 \/ s_remote t' = 0 \/ s_open t = false \/ too_long w t' 28 (zlen b))) \/ (r = -11 /\ s_tx t' = s_tx t /\ fifo_can_push_len (s_tx t) (42 + zlen b) = false)).
Definition sent_icmp (w : world) (t : sock) (to : option (Z * Z)) (b : list Z) (t' : sock) (r : Z) : Prop :=
  same_config t t' /\ (s_src t <> 0 -> s_src t' = s_src t) /\
  s_dst t' = s_dst t /\ (match to with Some (ip, _) => s_remote t' = ip | None => s_remote t' = s_remote t end) /\
  ((r = zlen b /\ s_open t = true /\ 8 <= zlen b /\ fifo_can_push_len (s_tx t) (34 + zlen b) = true /\ exists f, message_of t' b f /\ enqueued (s_tx t) f (s_tx t')) \/
   (r = -1 /\ s_tx t' = s_tx t /\ s_remote t' = 0) \/
   (r = -22 /\ s_tx t' = s_tx t /\ (s_open t = false \/ zlen b < 8 \/ too_long w t' 20 (zlen b) \/ (s_bound t <> 0 /\ ~ own w (s_bound t)))) \/ (r = -11 /\ s_tx t' = s_tx t /\ fifo_can_push_len (s_tx t) (34 + zlen b) = false)).
Definition tag (t : sock) (p : list (Z * list Z)) : list (bool * (Z * list Z)) := map (fun x => (s_mloop t, x)) p.
(** What one poll sends: a list per socket, in slot order. *)
Definition tags (l : list sock) (ps : list (list (Z * list Z))) : list (bool * (Z * list Z)) := concat (map (fun x => tag (fst x) (snd x)) (combine l ps)).
Definition known (o : oracle) (m : list Z) : Prop := exists k, o_mac o k = Some m.
(** Nothing stands in the way of the queued frames. *)
Definition open_road (w : world) (o : oracle) (t : sock) : Prop :=
  (forall k, o_mac o k <> None) /\ (forall k, o_drv o k = true) /\ (forall i f, w_fsend w i f = false) /\ w_ifs w <> [] /\
  (s_mifset t = true -> s_mif t < zlen (w_ifs w)) /\ (forall i f, In f (contents (s_tx t)) -> zlen f <= w_mtu w i).
Definition quiet (e : list uev) : Prop := Forall (fun x => match x with UTx _ _ | UArpReq _ _ => True | _ => False end) e.
(** A membership report went out, unless the interface has no address or too small an MTU. *)
Definition reported (w : world) (i g rec : Z) (e : list uev) : Prop :=
  (exists f, e = [UIgmp i f] /\ igmp_report w i g rec f) \/
  (e = [] /\ forall x, nth_error (w_ifs w) (Z.to_nat i) = Some x -> c_ip (i_conf x) = 0 \/ w_mtu w i < 54).
(** What an option sets: (multicast TTL, loop, interface chosen, interface, TOS). *)
Definition opt_sets (w : world) (s : sopt) (t : sock) (a : Z) (b c : bool) (d tos : Z) : Prop :=
  match s with
  | SJoin _ _ | SLeave _ _ => False
  | SMcIf x => a = s_mttl t /\ b = s_mloop t /\ tos = s_tos t /\ ((x = 0 /\ c = false) \/ (x <> 0 /\ c = true /\ exists cf, conf_of w d cf /\ c_ip cf = x))
  | SMcTtl v => a = v /\ 0 <= v <= 255 /\ b = s_mloop t /\ c = s_mifset t /\ d = s_mif t /\ tos = s_tos t
  | SMcLoop v => a = s_mttl t /\ b = v /\ c = s_mifset t /\ d = s_mif t /\ tos = s_tos t
  | STos v => a = s_mttl t /\ b = s_mloop t /\ c = s_mifset t /\ d = s_mif t /\ tos = v /\ 0 <= v <= 255
  end.
(** A membership query for group [g] (0: a general query), RFC 2236/3376. *)
Definition igmp_query (f : list Z) (g : Z) : Prop :=
  42 <= zlen f /\ 28 <= total f /\ 14 + total f <= zlen f /\ ones_complement_valid (part f 34 (total f - 20)) /\
  zget f 34 = 17 /\ ttl f = 1 /\ addr f 38 = g /\ (g = 0 \/ multicast g) /\ (dst f = 3758096385 \/ dst f = g).
(** ** IGMP queries and timers *)
Definition asked (f : list Z) (i : Z) (m : mship) : Prop :=
  exists g, igmp_query f g /\ m_refs m <> 0 /\ m_if m = i /\ (g = 0 \/ g = m_group m).
Definition same_entry (m m' : mship) : Prop := m_group m' = m_group m /\ m_if m' = m_if m /\ m_refs m' = m_refs m.

(** ** Inputs the theorems range over *)
Definition port_ok (p : Z) : Prop := 0 <= p < 65536.
Definition uworld_ok (w : world) : Prop := world_ok w /\ (forall i, 0 <= w_mtu w i).
Definition frame_ok (f : list Z) : Prop := Forall byte f /\ zlen f <= 65536.
Definition op_in (w : world) (o : uop) : Prop :=
  match o with
  | OBind _ ip port _ _ | OConnect _ ip port => addr32 ip /\ port_ok port
  | OSend _ to b _ => Forall byte b /\ (match to with Some (ip, port) => addr32 ip /\ port_ok port | None => True end)
  | OOpt _ (SJoin g a) | OOpt _ (SLeave g a) => addr32 g /\ addr32 a
  | OOpt _ (SMcIf a) => addr32 a
  (* ip_recv (Forward) hands up packets whose IP header has no options left *)
  | OUdp i f | OIcmp i f | OIgmp i f _ => frame_ok f /\ 0 <= i < zlen (w_ifs w) /\ (34 <= zlen f -> zget f 14 = 69)
  | OFlush o => forall k m, o_mac o k = Some m -> zlen m = 6 /\ Forall byte m
  | _ => True
  end.
(** Histories: each operation with the configuration in force. *)
Fixpoint urun (st : ust) (h : list (world * uop)) : option (ust * list (res * list uev)) :=
  match h with
  | [] => Some (st, [])
  | (w, o) :: h => do (st1, r, e) <- ustep w st o; do (st2, l) <- urun st1 h; Some (st2, (r, e) :: l)
  end.
Definition hist_ok (h : list (world * uop)) : Prop := Forall (fun wo => uworld_ok (fst wo) /\ op_in (fst wo) (snd wo)) h.
(** The states that operations lead to from the initial one, each satisfying [P]. *)
Inductive reaches (P : world -> ust -> uop -> Prop) : ust -> Prop :=
| re_init : reaches P ust0
| re_step w st o st' r e : reaches P st -> uworld_ok w -> op_in w o -> P w st o -> ustep w st o = Some (st', r, e) -> reaches P st'.
Definition reached : ust -> Prop := reaches (fun _ _ _ => True).

(** ** What a socket's user sees over time *)
Inductive subseq {A} : list A -> list A -> Prop :=
| sub_nil : subseq [] []
| sub_skip x l l' : subseq l l' -> subseq l (x :: l')
| sub_take x l l' : subseq l l' -> subseq (x :: l) (x :: l').
(** One executed operation. *)
Record did := mkD { d_w : world; d_st : ust; d_o : uop; d_r : res; d_e : list uev; d_st' : ust }.
Inductive trace : ust -> list did -> ust -> Prop :=
| tr_nil st : trace st [] st
| tr_cons w st o r e st1 tr st2 : uworld_ok w -> op_in w o -> ustep w st o = Some (st1, r, e) -> trace st1 tr st2 ->
    trace st (mkD w st o r e st1 :: tr) st2.
(** The datagrams one operation brings in for UDP slot [j]: a valid, unfiltered one from
    the network that the socket asked for, or multicasts just transmitted that it asked for. *)
Definition asks (w : world) (i : Z) (f : list Z) (t : sock) : Prop := valid_udp f /\ w_frecv w i f = false /\ wants w i f t.
Definition brings (j : Z) (d : did) (l : list (list Z)) : Prop :=
  exists t, slot (d_st d) FUdp j t /\
  match d_o d with
  | OUdp i f => (asks (d_w d) i f t /\ l = [f]) \/ (~ asks (d_w d) i f t /\ l = [])
  | OFlush _ => subseq l (map snd (transmitted (d_e d))) /\ Forall (fun f => multicast (dst f) /\ exists i, asks (d_w d) i f t) l
  | _ => l = []
  end.
(** What recvfrom hands to the caller through slot [j]: data, source address, source port. *)
Definition hands (j : Z) (d : did) (l : list (list Z * Z * Z)) : Prop :=
  match d_o d, d_r d with
  | ORecv fd _, RData b a p => (designates (d_st d) fd FUdp j /\ l = [(b, a, p)]) \/ (~ designates (d_st d) fd FUdp j /\ l = [])
  | _, _ => l = []
  end.
Inductive collects {A} (R : did -> list A -> Prop) : list did -> list A -> Prop :=
| co_nil : collects R [] []
| co_cons d tr a l : R d a -> collects R tr l -> collects R (d :: tr) (a ++ l).
Definition told (f : list Z) : list Z * Z * Z := (payload f, src f, sport f).
(** Slot [j] is not closed. *)
Definition keeps (j : Z) (d : did) : Prop := match d_o d with OClose fd => ~ designates (d_st d) fd FUdp j | _ => True end.
(** Nothing is lost at slot [j]: a datagram for it finds room (and not one of the bad
    positions of C01), and no buffer given to recvfrom is too short. *)
Definition roomy (j : Z) (d : did) : Prop :=
  match d_o d with
  | OUdp i f => forall t, slot (d_st d) FUdp j t -> asks (d_w d) i f t -> fifo_can_push_len (s_rx t) (zlen f) = true /\ ~ unlucky (s_rx t) f
  | OFlush _ => forall f, In f (map snd (transmitted (d_e d))) -> ~ multicast (dst f)
  | ORecv fd _ => designates (d_st d) fd FUdp j -> d_r d <> RZ (-22)
  | _ => True
  end.

(** Using sockets with care: no sendto on an unbound socket (its port is then drawn at
    random without a check), no connect of a socket bound to a port but no address. *)
Definition careful (st : ust) (o : uop) : Prop :=
  match o with
  | OSend fd _ _ _ => forall k j t, designates st fd k j -> slot st k j t -> s_src t <> 0
  | OConnect fd _ _ => forall k j t, 0 <= fd -> j = fd mod 256 -> slot st k j t -> s_src t = 0 \/ s_bound t <> 0
  | _ => True
  end.
(** IP_ADD_MEMBERSHIP is used on an open socket only. *)
Definition joins_open (st : ust) (o : uop) : Prop :=
  match o with OOpt fd (SJoin _ _) => forall n t, designates st fd FUdp n -> slot st FUdp n t -> s_open t = true | _ => True end.
(** Histories of a host whose interfaces only grow in number (now [N]). *)
Inductive lives : Z -> ust -> Prop :=
| li_init N : lives N ust0
| li_step N w st o st' r e : lives N st -> N <= zlen (w_ifs w) -> uworld_ok w -> op_in w o -> joins_open st o ->
    ustep w st o = Some (st', r, e) -> lives (zlen (w_ifs w)) st'.
