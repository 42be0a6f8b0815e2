(** What raw and packet sockets promise, in terms of packets, frames and queues. *)
From Verif Require Import Base Checksum ChecksumProps Route RouteProps Arp Fifo Forward ForwardSpec Udp UdpFifo UdpSpec Raw.

(** ** Inputs *)
(** The header an application supplies (IP_HDRINCL) fits in its packet. *)
Definition header_fits (b : list Z) : Prop := 4 * (zget b 0 mod 16) <= zlen b.
Definition rop_in (w : world) (st : rst) (o : rop) : Prop :=
  match o with
  | PBindRaw _ ip | PConnect _ ip => addr32 ip
  | PBindPkt _ x pr => port_ok pr
  | PSendRaw i to b junk => Forall byte b /\ Forall byte junk /\ (forall ip, to = Some ip -> addr32 ip) /\
      (forall t, nth_error (t_raw st) (Z.to_nat i) = Some t -> 0 <= i -> r_hdr t = true -> header_fits b)
  | PSendPkt _ to b => Forall byte b /\
      (forall a, to = Some a -> zlen (l_addr a) = 8 /\ Forall byte (l_addr a) /\ port_ok (l_proto a))
  | PInIp i f => frame_ok f /\ 0 <= i < zlen (w_ifs w)
  | PInFrame i f _ => frame_ok f /\ 14 <= zlen f /\ 0 <= i < zlen (w_ifs w)
  | PFlush o => forall k m, o_mac o k = Some m -> zlen m = 6 /\ Forall byte m
  | _ => True
  end.
(** Configurations; an interface number fits a byte (struct rawsocket.if_idx). *)
Definition rworld_ok (w : world) : Prop := uworld_ok w /\ zlen (w_ifs w) <= 256.
(** Executions from the initial state, one operation after the other. *)
Record rdid := mkRD { e_w : world; e_st : rst; e_o : rop; e_r : rres; e_e : list rev; e_st' : rst }.
Inductive rtrace : rst -> list rdid -> rst -> Prop :=
| rt_nil st : rtrace st [] st
| rt_cons w st o r e st1 tr st2 : rworld_ok w -> rop_in w st o -> rstep w st o = Some (st1, r, e) -> rtrace st1 tr st2 ->
    rtrace st (mkRD w st o r e st1 :: tr) st2.
Definition rreached (st : rst) : Prop := exists tr, rtrace rst0 tr st.
Definition raw_slot (st : rst) (j : Z) (t : rsock) : Prop := 0 <= j /\ nth_error (t_raw st) (Z.to_nat j) = Some t /\ r_used t = true.
Definition pkt_slot (st : rst) (j : Z) (t : psock) : Prop := 0 <= j /\ nth_error (t_pkt st) (Z.to_nat j) = Some t /\ p_used t = true.

(** ** Reception *)
(** A frame holding a complete IP packet, and that packet without link header and padding. *)
Definition holds_packet (f : list Z) : Prop := 34 <= zlen f /\ 20 <= total f <= zlen f - 14.
Definition ip_packet (f : list Z) : list Z := part f 14 (total f).
(** The socket asked for the packet in [f], arriving on interface [i]: its protocol, the
    address it is bound to, the interface it is on (0 in each: any). *)
Definition raw_wants (i : Z) (f : list Z) (t : rsock) : Prop :=
  holds_packet f /\ (r_proto t = 0 \/ r_proto t = proto f) /\ (r_bound t = 0 \/ r_bound t = dst f) /\ (r_if t = 0 \/ r_if t = i).
(** [wild]: an original frame; otherwise a frame whose VLAN tag was removed, already shown
    to the sockets that listen on every interface. *)
Definition pkt_wants (i : Z) (f : list Z) (wild : bool) (t : psock) : Prop :=
  zlen f <= LINK_MTU /\ (p_proto t = 0 \/ p_proto t = word f 12) /\ (p_bind t = i \/ (wild = true /\ p_bind t = 0)).
(** A frame as a packet socket queues it, with the interface it came from. *)
Definition record (i : Z) (f : list Z) : list Z := i :: f.
(** Everything but queues and the last TTL. *)
Definition raw_same (t t' : rsock) : Prop :=
  r_used t' = r_used t /\ r_proto t' = r_proto t /\ r_hdr t' = r_hdr t /\ r_dont t' = r_dont t /\ r_in t' = r_in t /\
  r_bound t' = r_bound t /\ r_local t' = r_local t /\ r_remote t' = r_remote t /\ r_if t' = r_if t.
Definition raw_handed (t : rsock) (f : list Z) (t' : rsock) : Prop :=
  raw_same t t' /\ r_tx t' = r_tx t /\ enqueued (r_rx t) (ip_packet f) (r_rx t') /\
  (fifo_can_push_len (r_rx t) (zlen (ip_packet f)) = true -> r_ttl t' = ttl f).
Definition pkt_same (t t' : psock) : Prop := p_used t' = p_used t /\ p_proto t' = p_proto t /\ p_bind t' = p_bind t.
(** the room a packet socket insists on *)
Definition crowded (q : fifo) (n : Z) : Prop := fifo_space q < n + DESC.
Definition pkt_handed (i : Z) (t : psock) (f : list Z) (t' : psock) : Prop :=
  pkt_same t t' /\ p_if t' = p_if t /\ p_tx t' = p_tx t /\
  ((crowded (p_rx t) (zlen f + 1) /\ p_rx t' = p_rx t) \/ (~ crowded (p_rx t) (zlen f + 1) /\ enqueued (p_rx t) (record i f) (p_rx t'))).

(** ** Sending *)
(** The source address of a packet routed out of interface [i]: the bound one, else the
    interface's, else the primary interface's, else whatever the socket had. *)
Definition source_for (w : world) (t : rsock) (i a : Z) : Prop :=
  (r_bound t <> 0 /\ a = r_bound t) \/
  (r_bound t = 0 /\ conf_ip w i <> 0 /\ a = conf_ip w i) \/
  (r_bound t = 0 /\ conf_ip w i = 0 /\ (a = r_local t \/ a = conf_ip w (if w_lb w then 1 else 0))).
(** The first configured interface satisfying [P]. *)
Definition first_if (w : world) (P : ipconf -> Prop) (i : Z) : Prop :=
  0 <= i < zlen (w_ifs w) /\ P (conf_at (w_confs w) i) /\ forall j, 0 <= j < i -> ~ P (conf_at (w_confs w) j).
Definition no_if (w : world) (P : ipconf -> Prop) : Prop := forall j, 0 <= j < zlen (w_ifs w) -> ~ P (conf_at (w_confs w) j).
(** The interface for [d] of a socket bound to [b]: the one with that address; else, with
    SO_DONTROUTE, the one whose network holds [d]; else what the routing table says (C09). *)
Definition routed (w : world) (b d : Z) (dont : bool) (i : Z) : Prop :=
  let mine c := b <> 0 /\ c_ip c = b in
  let near c := dont = true /\ c_ip c <> 0 /\ ip_is_local_conf c d = true in
  first_if w mine i \/ (no_if w mine /\ (first_if w near i \/ (no_if w near /\ i = route_for_ip w d))).
(** [f] (link header not yet filled in) carries [b] behind a header the stack built. *)
Definition built (w : world) (t : rsock) (d i : Z) (b f : list Z) : Prop :=
  zlen f = 34 + zlen b /\ zget f 14 = 69 /\ zget f 15 = 0 /\ total f = 20 + zlen b /\ word f 20 = 0 /\ ttl f = 64 /\ proto f = r_proto t mod 256 /\
  dst f = d /\ source_for w t i (src f) /\ ones_complement_valid (part f 14 20) /\ part f 34 (zlen b) = b.
(** [f] carries the packet [b] with the header the application supplied; if a destination
    was given (here or by connect) it replaces the one in the header, and the checksum is recomputed. *)
Definition supplied (d : Z) (b f : list Z) : Prop :=
  zlen f = 14 + zlen b /\
  (d = 0 -> part f 14 (zlen b) = b) /\
  (d <> 0 -> dst f = d /\ (forall k, 0 <= k < zlen b -> ~ (10 <= k < 12 \/ 16 <= k < 20) -> zget f (14 + k) = zget b k) /\
     (zget b 0 / 16 = 4 -> 20 <= 4 * (zget b 0 mod 16) -> ones_complement_valid (part f 14 (4 * (zget b 0 mod 16))))).
Definition raw_sent (w : world) (t : rsock) (to : option Z) (b : list Z) (t' : rsock) (r : Z) : Prop :=
  r_used t' = r_used t /\ r_proto t' = r_proto t /\ r_hdr t' = r_hdr t /\ r_dont t' = r_dont t /\ r_in t' = r_in t /\ r_bound t' = r_bound t /\
  r_rx t' = r_rx t /\ r_ttl t' = r_ttl t /\
  let d := match to with Some ip => ip | None => r_remote t end in
  ((r = zlen b /\ 0 < zlen b /\ 14 + zlen b + (if r_hdr t then 0 else 20) <= LINK_MTU /\
      fifo_can_push_len (r_tx t) (14 + zlen b + (if r_hdr t then 0 else 20)) = true /\
      exists f, (if r_hdr t then supplied d b f else exists i, routed w (r_bound t) d (r_dont t) i /\ built w t d i b f) /\ enqueued (r_tx t) f (r_tx t')) \/
   (r = -22 /\ r_tx t' = r_tx t /\ (b = [] \/ LINK_MTU < 14 + zlen b + (if r_hdr t then 0 else 20) \/ (r_hdr t = true /\ zlen b < 20) \/
                                    (d = 0 /\ (r_hdr t = false \/ addr b 16 = 0)))) \/
   (r = -11 /\ r_tx t' = r_tx t)).
(** A frame [f] as a packet socket sends [b]: with the interface's own address as source,
    the destination and type of the address argument (or the socket's type) if given. *)
Definition stamped (w : world) (t : psock) (to : option sll) (i : Z) (b f : list Z) : Prop :=
  zlen f = zlen b /\ (forall k, 14 <= k < zlen b -> zget f k = zget b k) /\
  (forall x, nth_error (w_ifs w) (Z.to_nat i) = Some x -> part f 6 6 = i_mac x) /\
  part f 0 6 = (match to with Some a => if 6 <=? l_halen a then firstn 6 (l_addr a) else part b 0 6 | None => part b 0 6 end) /\
  word f 12 = (let pr := match to with Some a => if l_proto a =? 0 then p_proto t else l_proto a | None => p_proto t end in if pr =? 0 then word b 12 else pr).
(** the interface chosen: the one named if it exists, else the socket's, else the first *)
Definition chosen_if (w : world) (t : psock) (to : option sll) (i : Z) : Prop :=
  let ok j := 0 <= j < zlen (w_ifs w) in
  (exists a, to = Some a /\ ok (l_if a) /\ i = l_if a) \/
  (~ (exists a, to = Some a /\ ok (l_if a)) /\ ((ok (p_if t) /\ i = p_if t) \/ (~ ok (p_if t) /\ i = 0))).
Definition pkt_sent (w : world) (t : psock) (to : option sll) (b : list Z) (t' : psock) (r : Z) : Prop :=
  pkt_same t t' /\ p_rx t' = p_rx t /\
  ((r = zlen b /\ 14 <= zlen b <= LINK_MTU /\ fifo_can_push_len (p_tx t) (zlen b) = true /\
      exists i f, chosen_if w t to i /\ p_if t' = i /\ stamped w t to i b f /\ enqueued (p_tx t) f (p_tx t')) \/
   (r = -22 /\ t' = t /\ (zlen b < 14 \/ LINK_MTU < zlen b)) \/
   (r = -11 /\ p_tx t' = p_tx t)).

(** ** Transmission *)
(** What left slot [j] of the raw (packet) table, in order: (interface, frame). *)
Fixpoint raw_out (j : Z) (e : list rev) : list (Z * list Z) :=
  match e with
  | [] => []
  | TxRaw s i f :: e | LostRaw s i f :: e => if s =? j then (i, f) :: raw_out j e else raw_out j e
  | _ :: e => raw_out j e
  end.
Fixpoint pkt_out (j : Z) (e : list rev) : list (Z * list Z) :=
  match e with
  | [] => []
  | TxPkt s i f :: e | LostPkt s i f :: e | VetoPkt s i f :: e => if s =? j then (i, f) :: pkt_out j e else pkt_out j e
  | _ :: e => pkt_out j e
  end.
(** Same packet: link header and header checksum aside. *)
Definition same_packet (g f : list Z) : Prop := zlen g = zlen f /\ forall k, 14 <= k -> k <> 24 -> k <> 25 -> zget g k = zget f k.
(** Interface [i] and next hop [nh] are what the routing table says for [d] (C09), or with
    SO_DONTROUTE the destination itself and the socket's interface. *)
Definition raw_leaves (w : world) (t : rsock) (d i nh : Z) : Prop :=
  if r_dont t then nh = d /\ (r_if t < zlen (w_ifs w) -> i = r_if t)
  else match route_lookup (w_lb w) (w_confs w) (w_routes w) d with Some x => x = (i, nh) | None => nh = d end.
(** A frame given to an interface: the right one, addressed to the loopback interface itself,
    to everybody if the next hop is 255.255.255.255, or to the neighbour ARP knows; and,
    unless the application writes the header itself, with a correct header checksum. *)
Definition raw_frame (w : world) (o : oracle) (t : rsock) (i : Z) (g : list Z) : Prop :=
  (r_hdr t = false -> zget g 14 / 16 = 4 -> 20 <= ihl g -> ones_complement_valid (part g 14 (ihl g))) /\
  exists nh, raw_leaves w t (dst g) i nh /\
  forall x, nth_error (w_ifs w) (Z.to_nat i) = Some x -> i_noneth x = false ->
    part g 6 6 = i_mac x /\ word g 12 = 2048 /\
    ((is_loop w i /\ part g 0 6 = i_mac x) \/ (nh = 4294967295 /\ part g 0 6 = repeat 255 6) \/ exists k, o_mac o k = Some (part g 0 6)).
(** What a driver took fits the interface. *)
Definition raw_wire (w : world) (e : rev) : Prop :=
  match e with
  | TxRaw _ i g | TxPkt _ i g => (exists x, nth_error (w_ifs w) (Z.to_nat i) = Some x) /\ zlen g <= w_mtu w i
  | _ => True
  end.
(** Nothing stands in the way: ARP knows every neighbour, the filter is silent. *)
Definition clear_way (w : world) (o : oracle) : Prop := (forall k, o_mac o k <> None) /\ (forall i f, w_fsend w i f = false).

(** ** Over time *)
(** What one operation brings to (takes from) slot [j]. *)
Definition raw_brings (j : Z) (d : rdid) (l : list (list Z)) : Prop :=
  match e_o d with
  | PInIp i f => exists t, raw_slot (e_st d) j t /\ ((raw_wants i f t /\ l = [ip_packet f]) \/ (~ raw_wants i f t /\ l = []))
  | _ => l = []
  end.
Definition raw_hands (j : Z) (d : rdid) : list (list Z * Z) :=
  match e_o d, e_r d with PRecvRaw i _, XData b a => if i =? j then [(b, a)] else [] | _, _ => [] end.
Definition pkt_brings (j : Z) (d : rdid) (l : list (list Z)) : Prop :=
  match e_o d with
  | PInFrame i f wild => exists t, pkt_slot (e_st d) j t /\ ((pkt_wants i f wild t /\ l = [record i f]) \/ (~ pkt_wants i f wild t /\ l = []))
  | _ => l = []
  end.
Definition pkt_hands (j : Z) (d : rdid) : list (list Z * Z * Z * list Z) :=
  match e_o d, e_r d with PRecvPkt i _, XFrame b x ty mac => if i =? j then [(b, x, ty, mac)] else [] | _, _ => [] end.
(** what the caller of recvfrom is told about a queued packet, a recorded frame *)
Definition raw_told (p : list Z) : list Z * Z := (p, addr p 12).
Definition pkt_told (r : list Z) : list Z * Z * Z * list Z := let f := skipn 1 r in (f, zget r 0, word f 12, part f 6 6).
Inductive gathers {A} (R : rdid -> list A -> Prop) : list rdid -> list A -> Prop :=
| ga_nil : gathers R [] []
| ga_cons d tr a l : R d a -> gathers R tr l -> gathers R (d :: tr) (a ++ l).
Definition raw_keeps (j : Z) (d : rdid) : Prop := match e_o d with PCloseRaw i => i <> j | _ => True end.
Definition pkt_keeps (j : Z) (d : rdid) : Prop := match e_o d with PClosePkt i => i <> j | _ => True end.
(** Nothing is lost at slot [j] by this operation: there is room (and not one of the bad
    positions of C01), the buffer given to recvfrom is long enough. *)
Definition raw_roomy (j : Z) (d : rdid) : Prop :=
  match e_o d with
  | PInIp i f => forall t, raw_slot (e_st d) j t -> raw_wants i f t ->
      fifo_can_push_len (r_rx t) (zlen (ip_packet f)) = true /\ ~ unlucky (r_rx t) (ip_packet f)
  | PRecvRaw i _ => i = j -> e_r d <> XZ (-22)
  | _ => True
  end.
Definition pkt_roomy (j : Z) (d : rdid) : Prop :=
  match e_o d with
  | PInFrame i f wild => forall t, pkt_slot (e_st d) j t -> pkt_wants i f wild t ->
      ~ crowded (p_rx t) (zlen f + 1) /\ fifo_can_push_len (p_rx t) (zlen (record i f)) = true /\ ~ unlucky (p_rx t) (record i f)
  | PRecvPkt i _ => i = j -> e_r d <> XZ (-22)
  | _ => True
  end.
(** the bytes of a frame after the link header, its header checksum left out *)
Definition body (f : list Z) : list Z := part f 14 10 ++ skipn 26 f.
(** What one sendto accepts for transmission from slot [j]: the frame queued. *)
Definition raw_accepts (j : Z) (d : rdid) (l : list (list Z)) : Prop :=
  match e_o d, e_r d with
  | PSendRaw i to b _, XZ r =>
      exists t, raw_slot (e_st d) j t /\
      let dd := match to with Some ip => ip | None => r_remote t end in
      if (i =? j) && (0 <? r)
      then exists f, l = [f] /\ (if r_hdr t then supplied dd b f else exists i, routed (e_w d) (r_bound t) dd (r_dont t) i /\ built (e_w d) t dd i b f)
      else l = []
  | _, _ => l = []
  end.
Definition pkt_accepts (j : Z) (d : rdid) (l : list (list Z)) : Prop :=
  match e_o d, e_r d with
  | PSendPkt i to b, XZ r =>
      exists t, pkt_slot (e_st d) j t /\
      if (i =? j) && (0 <? r) then exists x f, l = [f] /\ chosen_if (e_w d) t to x /\ stamped (e_w d) t to x b f else l = []
  | _, _ => l = []
  end.
(** the send finds a good position in the buffer *)
Definition raw_lucky (j : Z) (d : rdid) : Prop :=
  match e_o d with PSendRaw i _ b _ => i = j -> forall t f, raw_slot (e_st d) j t -> zlen f = 14 + zlen b + (if r_hdr t then 0 else 20) -> ~ unlucky (r_tx t) f | _ => True end.
Definition pkt_lucky (j : Z) (d : rdid) : Prop :=
  match e_o d with PSendPkt i _ b => i = j -> forall t f, pkt_slot (e_st d) j t -> zlen f = zlen b -> ~ unlucky (p_tx t) f | _ => True end.
