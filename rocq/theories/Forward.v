(** IPv4 reception: header validation, option policy, forwarding, the queue of
    packets that wait for ARP, hand-over to the local protocols.
    Source: /repo/src/wolfip.c:10131-10437 (ip_recv), 4666-4763 (forward_prepare,
    forward_packet), 9461-9528 (arp_queue_packet, arp_flush_pending), 9530-9567
    (arp_store_neighbor calls the flush), 2266-2363 (ICMP time exceeded),
    4452-4469 (Ethernet header), 1726-1762 (send_frame: size check).
    Configuration: WOLFIP_ENABLE_FORWARDING, ETHERNET; WOLFIP_ESP and raw
    sockets off (ESP is modelled separately; the raw-socket tap only copies).
    A frame is the list of its bytes, Ethernet header first (14 bytes of padding
    on a non-Ethernet link, wolfip.c:10575-10603); [None] is an access outside it. *)
From Verif Require Import Base ListUtil Checksum Route Arp HttpUrl.

(** What the code reads from its environment. [w_lb]: loopback compiled in
    (interface 0); [w_dhcp]: DHCP_IS_RUNNING; [w_mtu]: wolfIP_frame_mtu of an
    interface; [w_frecv]/[w_fsend]: the packet filter rejects (wolfIP_filter_notify_*,
    all the notifications of one packet folded into one answer). *)
Record world := mkW { w_lb : bool; w_dhcp : bool; w_ifs : list iface; w_mtu : Z -> Z; w_routes : list route;
                      w_frecv : Z -> list Z -> bool; w_fsend : Z -> list Z -> bool }.

(** wolfip.c:1392-1397 struct arp_pending_entry ([q_frame] = its first len bytes). *)
Record qent := mkQ { q_dest : Z; q_if : Z; q_frame : list Z }.
Definition qent0 : qent := mkQ 0 0 [].
(** The state touched: ARP tables, packets waiting for ARP, IP id counter. *)
Record fst_ := mkF { f_arp : arpst; f_q : list qent; f_id : Z }.
Definition fwd_init : fst_ := mkF arp_init (repeat qent0 4) 0.

(** Observable effects. *)
Inductive ev :=
| EvForward (out_if : Z) (frame : list Z)   (* relayed packet given to the driver *)
| EvIcmp (out_if : Z) (frame : list Z)      (* time exceeded message *)
| EvArp (out_if : Z) (frame : list Z)       (* ARP request *)
| EvUp (frame : list Z).                    (* handed to TCP/UDP/ICMP/IGMP *)

Definition w_confs (w : world) : list ipconf := map i_conf (w_ifs w).
Definition is_noneth (w : world) (i : Z) : bool :=
  match nth_error (w_ifs w) (Z.to_nat i) with Some x => i_noneth x | None => false end.
Definition in_loopback (a : Z) : bool := Z.land a 4278190080 =? 2130706432.
Definition hlen_of (f : list Z) : Z := Z.shiftl (Z.land (zget f 14) 15) 2.

(** wolfip.c:10200-10226: the option walk over [o, e); [Some false] = drop. *)
Fixpoint opts_loop (fuel : nat) (f : list Z) (o e : Z) : option bool :=
  if e <=? o then Some true else
  match fuel with
  | O => None
  | S fuel =>
      do t <- rd1 f o;
      if t =? 0 then Some true else
      if t =? 1 then opts_loop fuel f (o + 1) e else
      if (t =? 131) || (t =? 137) then Some false else
      if e <=? o + 1 then Some false else
      do l <- rd1 f (o + 1);
      if l <? 2 then Some false else
      if u8 (e - o) <? l then Some false else
      opts_loop fuel f (o + l) e
  end.

(** wolfip.c:10141-10226: may the packet be processed at all? *)
Definition ip_accept (w : world) (ifx : Z) (f : list Z) : option bool :=
  let len := zlen f in
  if len <? 34 then Some false else
  let hlen := hlen_of f in
  if negb (Z.shiftr (zget f 14) 4 =? 4) || (hlen <? 20) then Some false else
  if len <? 14 + hlen then Some false else
  if rd16 f 16 <? hlen then Some false else
  if len - 14 <? rd16 f 16 then Some false else
  do ck <- iphdr_verify_checksum (skipn 14 f);
  if negb ck then Some false else
  if negb (Z.land (rd16 f 20) 16383 =? 0) then Some false else
  let src := rd32 f 26 in
  let dst := rd32 f 30 in
  if ip_is_broadcast (w_confs w) src || ip_is_multicast src then Some false else
  if (src =? 0) && negb (w_dhcp w) then Some false else
  if negb (is_loopback_if (w_lb w) ifx) && (in_loopback dst || in_loopback src) then Some false else
  if w_frecv w ifx f then Some false else
  if 20 <? hlen then opts_loop (Z.to_nat (hlen - 20)) f 34 (14 + hlen) else Some true.

(** wolfip.c:10248-10260 *)
Definition own_addr (cs : list ipconf) (a : Z) : bool := existsb (fun c => negb (c_ip c =? 0) && (c_ip c =? a)) cs.
Definition fwd_is_local (w : world) (dst : Z) : bool :=
  (dst =? 0) || ip_is_broadcast (w_confs w) dst || own_addr (w_confs w) dst.
(** wolfip.c:10290-10302: some other configured interface's subnet contains the source *)
Fixpoint other_subnet (cs : list ipconf) (i ifx src : Z) : bool :=
  match cs with
  | [] => false
  | c :: cs => (negb (i =? ifx) && negb (c_ip c =? 0) && ip_is_local_conf c src) || other_subnet cs (i + 1) ifx src
  end.
(** wolfip.c:10261-10304 *)
Definition rpf_drop (w : world) (ifx src : Z) : bool :=
  (in_loopback src && negb (is_loopback_if (w_lb w) ifx)) || (Z.land src 4294901760 =? 2851995648) ||
  own_addr (w_confs w) src || other_subnet (w_confs w) 0 ifx src.
(** wolfip.c:10306-10339: outgoing interface and next hop *)
Definition fwd_route (w : world) (ifx dst : Z) : option (Z * Z) :=
  match forward_interface (w_confs w) ifx dst with
  | Some o => Some (o, dst)
  | None =>
      let b := lookup_static (w_routes w) dst
                 {| b_if := -1; b_nh := dst; b_len := 0; b_ord := 4294967295; b_found := false |} in
      if negb (b_found b) then None else if b_if b =? ifx then None else Some (b_if b, b_nh b)
  end.

(** ip->ttl--; ip->csum = 0; iphdr_set_checksum(ip), wolfip.c:10351-10353 and 9518-9520. *)
Definition dec_ttl (f : list Z) : option (list Z) :=
  do f <- mwrite f 22 [u8 (zget f 22 - 1)];
  do ip <- iphdr_set_checksum (skipn 14 f);
  Some (firstn 14 f ++ ip).

(** wolfip.c:4700-4763 wolfIP_forward_packet, with the size check of send_frame (1754-1756).
    [dst] = destination MAC, broadcast MAC included. *)
Definition forward_packet (w : world) (out : Z) (f dst : list Z) : list ev :=
  match nth_error (w_ifs w) (Z.to_nat out) with
  | None => []
  | Some i =>
      let f := if i_noneth i then f else dst ++ i_mac i ++ be16 2048 ++ skipn 14 f in
      if w_fsend w out f then [] else
      if w_mtu w out <? zlen f then [] else [EvForward out f]
  end.

(** wolfip.c:9461-9487 arp_queue_packet: [None] = overflow of the 1536-byte slot *)
Fixpoint queue_slot (q : list qent) (ifx dest : Z) (i : nat) (slot : option nat) : option nat :=
  match q with
  | [] => slot
  | e :: q =>
      if (q_dest e =? dest) && (q_if e =? ifx) then Some i
      else queue_slot q ifx dest (S i) (match slot with None => if q_dest e =? 0 then Some i else None | Some _ => slot end)
  end.
Definition arp_queue_packet (w : world) (q : list qent) (ifx dest : Z) (f : list Z) : option (list qent) :=
  if zlen f =? 0 then Some q else
  if w_mtu w ifx <? zlen f then Some q else
  match queue_slot q ifx dest 0 None with
  | None => Some q
  | Some i => if 1536 <? zlen f then None else Some (set_nth i (mkQ dest (u8 ifx) f) q)
  end.

(** wolfip.c:9489-9528 arp_flush_pending, the loop *)
Fixpoint flush_loop (w : world) (q : list qent) (ifx ip : Z) (mac : list Z) : option (list qent * list ev) :=
  match q with
  | [] => Some ([], [])
  | e :: q' =>
      do (r, evs) <- flush_loop w q' ifx ip mac;
      if negb (q_dest e =? ip) || negb (q_if e =? ifx) then Some (e :: r, evs) else
      if zlen (q_frame e) =? 0 then Some (mkQ 0 (q_if e) (q_frame e) :: r, evs) else
      if w_mtu w ifx <? zlen (q_frame e) then Some (mkQ 0 (q_if e) [] :: r, evs) else
      do t <- rd1 (q_frame e) 22;
      if t <=? 1 then Some (mkQ 0 (q_if e) [] :: r, evs) else
      do f <- dec_ttl (q_frame e);
      Some (mkQ 0 (q_if e) [] :: r, forward_packet w ifx f mac ++ evs)
  end.
Definition arp_flush_pending (w : world) (st : fst_) (ifx ip : Z) : option (fst_ * list ev) :=
  let '(a, m) := arp_lookup (f_arp st) ifx ip in
  match m with
  | None => Some (mkF a (f_q st) (f_id st), [])
  | Some mac => do (q, evs) <- flush_loop w (f_q st) ifx ip mac; Some (mkF a q (f_id st), evs)
  end.

(** wolfip.c:2266-2363 wolfIP_send_ttl_exceeded *)
Definition send_ttl_exceeded (w : world) (st : fst_) (ifx : Z) (f : list Z) : option (fst_ * list ev) :=
  match nth_error (w_ifs w) (Z.to_nat ifx) with
  | None => Some (st, [])
  | Some i =>
      let ihl := let h := Z.land (zget f 14) 15 * 4 in if h <? 20 then 20 else h in
      do suppress <- (if (zget f 23 =? 1) && (ihl <? rd16 f 16)
                      then do t <- rd1 f (14 + ihl); Some ((t =? 3) || (t =? 4) || (t =? 5) || (t =? 11) || (t =? 12))
                      else Some false);
      if suppress : bool then Some (st, []) else
      let total := if rd16 f 16 <? ihl then ihl else rd16 f 16 in
      let n := if total <? ihl + 8 then total else ihl + 8 in
      let n := if 68 <? n then 68 else n in
      do quoted <- mread f 14 n;
      do icmp <- fill_checksum ([11; 0; 0; 0; 0; 0; 0; 0] ++ quoted) 2;
      do ip <- iphdr_set_checksum ([69; zget f 15] ++ be16 (u16 (28 + n)) ++ be16 (f_id st) ++ [64; 0; 64; 1; 0; 0] ++
                                   be32 (c_ip (i_conf i)) ++ slice f 26 4);
      let eth := if i_noneth i then repeat 0 14 else slice f 6 6 ++ i_mac i ++ be16 2048 in
      let g := eth ++ ip ++ icmp in
      let st := mkF (f_arp st) (f_q st) (u16 (f_id st + 1)) in
      if w_fsend w ifx g then Some (st, []) else
      if w_mtu w ifx <? zlen g then Some (st, []) else Some (st, [EvIcmp ifx g])
  end.

(** wolfip.c:4666-4698 wolfIP_forward_prepare: [Some mac] = ready. *)
Definition forward_prepare (w : world) (st : fst_) (out nh : Z) : fst_ * option (list Z) * list ev :=
  if is_noneth w out then (st, Some (repeat 0 6), []) else
  if is_loopback_if (w_lb w) out then
    (st, Some (match nth_error (w_ifs w) (Z.to_nat out) with Some i => i_mac i | None => repeat 0 6 end), []) else
  if ip_is_broadcast (w_confs w) nh then (st, Some (repeat 255 6), []) else
  let '(a, m) := arp_lookup (f_arp st) out nh in
  match m with
  | Some mac => (mkF a (f_q st) (f_id st), Some mac, [])
  | None =>
      let '(a, r) := arp_request (w_ifs w) a out nh in
      (mkF a (f_q st) (f_id st), None, match r with Some g => [EvArp out g] | None => [] end)
  end.

(** wolfip.c:10372-10395: the packet handed to the transport protocols; options removed. *)
Definition strip_options (f : list Z) : option (list Z) :=
  let hlen := hlen_of f in
  if hlen <=? 20 then Some f else
  do f1 <- memmove f 34 (14 + hlen) (zlen f - (14 + hlen));
  let f1 := firstn (Z.to_nat (zlen f - (hlen - 20))) f1 in
  do f2 <- mwrite f1 14 [Z.lor (Z.land (zget f1 14) 240) 5];
  do f3 <- mwrite f2 16 (be16 (u16 (rd16 f 16 - u16 (hlen - 20))));
  do ip <- iphdr_set_checksum (skipn 14 f3);
  Some (firstn 14 f3 ++ ip).
Definition ip_up (f : list Z) : option (list ev) :=
  if (20 <? hlen_of f) && (1536 <? zlen f) then Some [] else
  do g <- strip_options f; Some [EvUp g].

(** wolfip.c:10131-10437 ip_recv *)
Definition ip_recv (w : world) (st : fst_) (ifx : Z) (f : list Z) : option (fst_ * list ev) :=
  do ok <- ip_accept w ifx f;
  if negb ok then Some (st, []) else
  let l2_group := negb (is_noneth w ifx) && negb (Z.land (zget f 0) 1 =? 0) in
  let dst := rd32 f 30 in
  let src := rd32 f 26 in
  if fwd_is_local w dst then do e <- ip_up f; Some (st, e) else
  if rpf_drop w ifx src then Some (st, []) else
  if l2_group then do e <- ip_up f; Some (st, e) else
  match fwd_route w ifx dst with
  | None => do e <- ip_up f; Some (st, e)
  | Some (out, nh) =>
      do g <- mread f 0 (14 + rd16 f 16);
      if zget f 22 <=? 1 then send_ttl_exceeded w st ifx f else
      let '(st1, mac, evs) := forward_prepare w st out nh in
      match mac with
      | None => do q <- arp_queue_packet w (f_q st1) out nh g; Some (mkF (f_arp st1) q (f_id st1), evs)
      | Some m => do g <- dec_ttl g; Some (st1, evs ++ forward_packet w out g m)
      end
  end.

(** Reception of an ARP frame with the flush that arp_store_neighbor triggers
    (wolfip.c:9564-9566): [arp_stores] is the address stored, if any. *)
Definition arp_stores (ifs : list iface) (st : arpst) (ifx : Z) (f : list Z) (dad : bool) : option Z :=
  if zlen f <? 42 then None else
  match nth_error ifs (Z.to_nat ifx) with
  | None => None
  | Some i =>
    let ip := c_ip (i_conf i) in
    let cs := map i_conf ifs in
    let sip := rd32 f 28 in
    if i_noneth i then None else
    if negb (rd16 f 14 =? 1) || negb (rd16 f 16 =? 2048) || negb (zget f 18 =? 6) || negb (zget f 19 =? 4) then None else
    if negb (Z.land (zget f 22) 1 =? 0) then None else
    if negb (rd16 f 20 =? 2) then None else
    if dad && (sip =? ip) then None else
    if (sip =? 0) || (sip =? ip) || ip_is_broadcast cs sip || ip_is_multicast sip then None else
    if snd (arp_pending_match (a_pds st) ifx sip (a_tick st)) then Some sip else None
  end.
Definition arp_recv_fwd (w : world) (st : fst_) (ifx : Z) (f : list Z) (dad : bool) : option (fst_ * list ev) :=
  let '(a, _) := arp_recv (w_ifs w) (f_arp st) ifx f dad in
  let st1 := mkF a (f_q st) (f_id st) in
  match arp_stores (w_ifs w) (f_arp st) ifx f dad with
  | Some ip => arp_flush_pending w st1 ifx ip
  | None => Some (st1, [])
  end.

(** wolfip.c:10018-10026: packets queued for a deleted VLAN interface are dropped. *)
Definition queue_purge (q : list qent) (ifx : Z) : list qent :=
  map (fun e => if q_if e =? u8 ifx then qent0 else e) q.

(** Histories. *)
Inductive fop := FIp (w : world) (ifx : Z) (f : list Z) | FArp (w : world) (ifx : Z) (f : list Z) (dad : bool)
               | FTick (now : Z) | FPurge (ifx : Z).
Definition fstep (st : fst_) (o : fop) : option (fst_ * list ev) :=
  match o with
  | FIp w ifx f => ip_recv w st ifx f
  | FArp w ifx f dad => arp_recv_fwd w st ifx f dad
  | FTick now => Some (mkF (arp_tick (f_arp st) now) (f_q st) (f_id st), [])
  | FPurge ifx => Some (mkF (arp_purge (f_arp st) ifx) (queue_purge (f_q st) ifx) (f_id st), [])
  end.
Fixpoint frun (st : fst_) (os : list fop) : option (fst_ * list (list ev)) :=
  match os with
  | [] => Some (st, [])
  | o :: os => do (st1, e) <- fstep st o; do (st2, es) <- frun st1 os; Some (st2, e :: es)
  end.
