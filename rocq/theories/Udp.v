(** Datagram sockets: descriptors, socket/bind/connect/close, UDP and ICMP
    demultiplexing, sendto/recvfrom, the transmit flush, multicast membership.
    Source: /repo/src/wolfip.c:2226-2246 (if_for_local_ip), 2373-2460 (port
    unreachable), 2632-2763 (UDP), 2765-2784 and 2836-2862 (ICMP sockets),
    1916-1955 and 7259-7372 (multicast), 4473-4655 (IGMP), 4770-4820 (IP header),
    6139-6216 (close, descriptors), 6247-6390 (socket, connect), 6718-6845 (sendto),
    7086-7160 (recvfrom), 7374-7512 (setsockopt), 7662-7755 (close), 7917-8125
    (bind), 8211-8318 (icmp_input), 11453-11560 (flush); /repo/wolfip.h:284-295.
    Configuration: ETHERNET, IP_MULTICAST; raw/packet sockets and ESP off.
    Not modelled: CB_EVENT flags and callbacks (no influence on data), recv_ttl.
    [None] is undefined behaviour.  TCP sockets appear only as far as socket,
    bind and close of a CLOSED socket go (the rest: TcpState). *)
From Verif Require Import Base ListUtil Checksum Route Arp HttpUrl Fifo Forward.

(** Parts of struct tsocket (wolfip.c:1216-1330) used here.  [s_open]: proto and S
    set; [s_closed]: TCP state is CLOSED; [s_mc]: udp.mcast[] as (group, if_idx). *)
Record sock := mkS { s_open : bool; s_closed : bool; s_local : Z; s_bound : Z; s_src : Z; s_remote : Z; s_dst : Z;
  s_if : Z; s_conn : bool; s_rx : fifo; s_tx : fifo; s_mc : list (Z * Z);
  s_mttl : Z; s_mloop : bool; s_mifset : bool; s_mif : Z; s_tos : Z; s_ttl : Z }.
(** memset(ts, 0, sizeof *ts) *)
Definition sock0 : sock := mkS false true 0 0 0 0 0 0 false (fifo_init [] 0) (fifo_init [] 0) (repeat (0, 0) 4) 0 false false 0 0 0.

(** struct wolfIP_mcast_membership, wolfip.c:1429-1436; [m_tmr]: tmr_report is armed. *)
Record mship := mkM { m_group : Z; m_if : Z; m_refs : Z; m_tmr : bool }.
Definition mship0 : mship := mkM 0 0 0 false.

Record ust := mkU { u_tcp : list sock; u_udp : list sock; u_icmp : list sock; u_mc : list mship; u_id : Z }.
(** wolfIP_init: MAX_TCPSOCKETS 4, MAX_UDPSOCKETS 2, MAX_ICMPSOCKETS 2, 8 memberships. *)
Definition ust0 : ust := mkU (repeat sock0 4) (repeat sock0 2) (repeat sock0 2) (repeat mship0 8) 0.

Definition set_local v (t : sock) := mkS (s_open t) (s_closed t) v (s_bound t) (s_src t) (s_remote t) (s_dst t) (s_if t) (s_conn t) (s_rx t) (s_tx t) (s_mc t) (s_mttl t) (s_mloop t) (s_mifset t) (s_mif t) (s_tos t) (s_ttl t).
Definition set_bound v (t : sock) := mkS (s_open t) (s_closed t) (s_local t) v (s_src t) (s_remote t) (s_dst t) (s_if t) (s_conn t) (s_rx t) (s_tx t) (s_mc t) (s_mttl t) (s_mloop t) (s_mifset t) (s_mif t) (s_tos t) (s_ttl t).
Definition set_src v (t : sock) := mkS (s_open t) (s_closed t) (s_local t) (s_bound t) v (s_remote t) (s_dst t) (s_if t) (s_conn t) (s_rx t) (s_tx t) (s_mc t) (s_mttl t) (s_mloop t) (s_mifset t) (s_mif t) (s_tos t) (s_ttl t).
Definition set_peer r d (t : sock) := mkS (s_open t) (s_closed t) (s_local t) (s_bound t) (s_src t) r d (s_if t) (s_conn t) (s_rx t) (s_tx t) (s_mc t) (s_mttl t) (s_mloop t) (s_mifset t) (s_mif t) (s_tos t) (s_ttl t).
Definition set_if v (t : sock) := mkS (s_open t) (s_closed t) (s_local t) (s_bound t) (s_src t) (s_remote t) (s_dst t) v (s_conn t) (s_rx t) (s_tx t) (s_mc t) (s_mttl t) (s_mloop t) (s_mifset t) (s_mif t) (s_tos t) (s_ttl t).
Definition set_conn v (t : sock) := mkS (s_open t) (s_closed t) (s_local t) (s_bound t) (s_src t) (s_remote t) (s_dst t) (s_if t) v (s_rx t) (s_tx t) (s_mc t) (s_mttl t) (s_mloop t) (s_mifset t) (s_mif t) (s_tos t) (s_ttl t).
Definition set_rx v ttl (t : sock) := mkS (s_open t) (s_closed t) (s_local t) (s_bound t) (s_src t) (s_remote t) (s_dst t) (s_if t) (s_conn t) v (s_tx t) (s_mc t) (s_mttl t) (s_mloop t) (s_mifset t) (s_mif t) (s_tos t) ttl.
Definition set_tx v (t : sock) := mkS (s_open t) (s_closed t) (s_local t) (s_bound t) (s_src t) (s_remote t) (s_dst t) (s_if t) (s_conn t) (s_rx t) v (s_mc t) (s_mttl t) (s_mloop t) (s_mifset t) (s_mif t) (s_tos t) (s_ttl t).
Definition set_mc v (t : sock) := mkS (s_open t) (s_closed t) (s_local t) (s_bound t) (s_src t) (s_remote t) (s_dst t) (s_if t) (s_conn t) (s_rx t) (s_tx t) v (s_mttl t) (s_mloop t) (s_mifset t) (s_mif t) (s_tos t) (s_ttl t).
Definition set_mopt ttl loop ifset ifx tos (t : sock) := mkS (s_open t) (s_closed t) (s_local t) (s_bound t) (s_src t) (s_remote t) (s_dst t) (s_if t) (s_conn t) (s_rx t) (s_tx t) (s_mc t) ttl loop ifset ifx tos (s_ttl t).

Definition upd (l : list sock) (i : Z) (t : sock) : list sock := set_nth (Z.to_nat i) t l.
Definition with_udp (st : ust) l := mkU (u_tcp st) l (u_icmp st) (u_mc st) (u_id st).
Definition with_icmp (st : ust) l := mkU (u_tcp st) (u_udp st) l (u_mc st) (u_id st).
Definition with_tcp (st : ust) l := mkU l (u_udp st) (u_icmp st) (u_mc st) (u_id st).
Definition with_mc (st : ust) l := mkU (u_tcp st) (u_udp st) (u_icmp st) l (u_id st).
Definition with_id (st : ust) v := mkU (u_tcp st) (u_udp st) (u_icmp st) (u_mc st) v.

(** What leaves the stack. *)
Inductive uev :=
| UTx (ifx : Z) (frame : list Z)      (* datagram accepted by the driver *)
| UUnreach (ifx : Z) (frame : list Z) (* ICMP port unreachable *)
| UEcho (ifx : Z) (frame : list Z)    (* ICMP echo reply *)
| UIgmp (ifx : Z) (frame : list Z)    (* membership report *)
| UArpReq (ifx ip : Z)                (* arp_request() (modelled in Arp) *)
| UTcpErr (frame : list Z).           (* icmp_try_deliver_tcp_error() (2866-2955) *)
Inductive res := RZ (z : Z) | RData (b : list Z) (src port : Z) | RTcp | RVoid.

(** ** Descriptors, wolfip.h:284-295 *)
Definition MARK_TCP : Z := 256.
Definition MARK_UDP : Z := 512.
Definition MARK_ICMP : Z := 1024.
Definition is_marked (fd m : Z) : bool := Z.land fd m =? m.
Definition unmark (fd : Z) : Z := Z.land fd 255.
Inductive fam := FTcp | FUdp | FIcmp.
Definition socks (st : ust) (k : fam) : list sock := match k with FTcp => u_tcp st | FUdp => u_udp st | FIcmp => u_icmp st end.
Definition mark (k : fam) : Z := match k with FTcp => MARK_TCP | FUdp => MARK_UDP | FIcmp => MARK_ICMP end.
(** The test cascade of wolfIP_socket_from_fd (6196-6216), sendto, recvfrom, bind,
    close: family by mark (TCP first), then the slot number against the table size.
    [inl e]: the error returned. *)
Definition decode (st : ust) (fd : Z) : Z + (fam * Z) :=
  if fd <? 0 then inl (-22) else
  match (if is_marked fd MARK_TCP then Some FTcp else if is_marked fd MARK_UDP then Some FUdp
         else if is_marked fd MARK_ICMP then Some FIcmp else None) with
  | None => inl (-1)
  | Some k => if zlen (socks st k) <=? unmark fd then inl (-22) else inr (k, unmark fd)
  end.
Definition sock_at (l : list sock) (i : Z) : sock := nth (Z.to_nat i) l sock0.

(** ** Addresses *)
Definition conf_ip (w : world) (i : Z) : Z := c_ip (conf_at (w_confs w) i).
(** wolfip.c:2226-2246 *)
Fixpoint find_if (cs : list ipconf) (i ip : Z) : option Z :=
  match cs with [] => None | c :: cs => if c_ip c =? ip then Some i else find_if cs (i + 1) ip end.
Definition if_for_local_ip (w : world) (ip : Z) : Z * bool :=
  if zlen (w_confs w) =? 0 then (0, false) else
  if ip =? 0 then (primary_if (w_lb w) (w_confs w), false) else
  match find_if (w_confs w) 0 ip with
  | Some i => (i, true)
  | None => (primary_if (w_lb w) (w_confs w), false)
  end.
(** wolfip.c:2130-2136 *)
Definition route_for_ip (w : world) (d : Z) : Z :=
  match route_lookup (w_lb w) (w_confs w) (w_routes w) d with Some (i, _) => i | None => 0 end.
(** the address of interface [i], else that of the primary interface, else 0
    (the fragment repeated in bind, connect, sendto) *)
Definition pick_local (w : world) (i : Z) : Z :=
  if negb (conf_ip w i =? 0) then conf_ip w i else conf_ip w (if w_lb w then 1 else 0).
(** wolfip.c:2152-2157, 1564-1583: IP MTU of a socket's interface *)
Definition sock_if (w : world) (t : sock) : Z := if negb (s_open t) || (zlen (w_ifs w) <=? s_if t) then 0 else s_if t.
Definition sock_ip_mtu (w : world) (t : sock) : Z :=
  if negb (s_open t) then 0 else
  let m := w_mtu w (sock_if w t) in
  if m <=? 14 then 0 else let m := m - 14 in if 1500 <? m then 1500 else m.

(** ** socket(), wolfip.c:2633-2655, 2766-2784, 6247-6277; tcp_new_socket 3120-3190 (slot only) *)
Definition RXBUF : Z := 20480.
Definition TXBUF : Z := 32768.
Definition fresh (size : Z) : fifo := fifo_init (repeat 0 (Z.to_nat size)) size.
(** udp_new_socket / icmp_new_socket clear nothing but what is listed here *)
Definition open_sock (k : fam) (t : sock) : sock :=
  mkS true (s_closed t) (s_local t) (s_bound t) (s_src t) (s_remote t) (s_dst t) 0 (s_conn t) (fresh RXBUF) (fresh TXBUF) (s_mc t)
      (match k with FUdp => 1 | _ => s_mttl t end) (match k with FUdp => true | _ => s_mloop t end)
      (s_mifset t) (s_mif t) (s_tos t) (s_ttl t).
Fixpoint free_slot (l : list sock) (i : Z) : option Z :=
  match l with [] => None | t :: l => if s_open t then free_slot l (i + 1) else Some i end.
Definition set_socks (st : ust) (k : fam) (l : list sock) : ust :=
  match k with FTcp => with_tcp st l | FUdp => with_udp st l | FIcmp => with_icmp st l end.
Definition socket (st : ust) (k : fam) : ust * res :=
  match free_slot (socks st k) 0 with
  | None => (st, RZ (-1))
  | Some i => (set_socks st k (upd (socks st k) i (open_sock k (sock_at (socks st k) i))), RZ (Z.lor i (mark k)))
  end.

(** ** bind(), wolfip.c:7917-8125 *)
Fixpoint port_in_use (l : list sock) (i self ip port : Z) : bool :=
  match l with
  | [] => false
  | t :: l =>
      (negb (i =? self) && (s_src t =? port) &&
       negb (negb (s_local t =? 0) && negb (ip =? 0) && negb (s_local t =? ip)))
      || port_in_use l (i + 1) self ip port
  end.
Definition bind_port_in_use (l : list sock) (self ip port : Z) : bool :=
  if port =? 0 then false else port_in_use l 0 self ip port.
(** [fam_ok]: sin_family == AF_INET; [veto]: the filter's answer to BINDING.
    A NULL address or a short addrlen is rejected first (-22, omitted).
    The socket-local part; [None]: no slot reached. *)
Definition bind_sock (w : world) (k : fam) (l : list sock) (i : Z) (t : sock) (ip port : Z) (fam_ok veto : bool) : sock * Z :=
  let '(ifx, _) := if_for_local_ip w ip in
  if (match k with FTcp => negb (s_closed t) | _ => negb (s_src t =? 0) end) then (t, -1) else
  if negb fam_ok then (t, -1) else
  let t1 := set_if (u8 ifx) t in
  let loc := if negb (ip =? 0) then ip else
             let p := pick_local w ifx in
             match k with FIcmp => if p =? 0 then s_local t else p | _ => p end in
  if bind_port_in_use l i loc port then (t1, -1) else
  if veto : bool then (t1, -1) else
  (set_bound ip (set_src port (set_local loc t1)), 0).
Definition bind (w : world) (st : ust) (fd ip port : Z) (fam_ok veto : bool) : ust * res :=
  if fd <? 0 then (st, RZ (-22)) else
  if negb (ip =? 0) && negb (snd (if_for_local_ip w ip)) then (st, RZ (-1)) else
  match decode st fd with
  | inl e => (st, RZ e)
  | inr (k, i) =>
      let '(t, r) := bind_sock w k (socks st k) i (sock_at (socks st k) i) ip port fam_ok veto in
      (set_socks st k (upd (socks st k) i t), RZ r)
  end.

(** ** connect(), wolfip.c:6302-6390; UDP is tested first, TCP is modelled in TcpState.
    An address shorter than sockaddr_in or of another family: -22 (omitted). *)
Definition connect_udp (w : world) (t : sock) (ip port : Z) : sock * Z :=
  if negb (s_bound t =? 0) then
    let '(ifx, ok) := if_for_local_ip w (s_bound t) in
    if negb ok then (t, -22) else
    (set_conn true (set_local (s_bound t) (set_if (u8 ifx) (set_peer ip port t))), 0)
  else
    let ifx := route_for_ip w ip in
    (set_conn true (set_local (pick_local w ifx) (set_if (u8 ifx) (set_peer ip port t))), 0).
Definition connect_icmp (w : world) (t : sock) (ip : Z) : sock * Z :=
  let t := set_peer ip (s_dst t) t in
  if negb (s_bound t =? 0) then
    let '(ifx, ok) := if_for_local_ip w (s_bound t) in
    if negb ok then (t, -22) else (set_local (s_bound t) (set_if (u8 ifx) t), 0)
  else
    let ifx := route_for_ip w ip in
    let t := set_if (u8 ifx) t in
    (if s_local t =? 0 then set_local (pick_local w ifx) t else t, 0).
Definition connect (w : world) (st : ust) (fd ip port : Z) : ust * res :=
  if fd <? 0 then (st, RZ (-22)) else
  if is_marked fd MARK_UDP then
    if zlen (u_udp st) <=? unmark fd then (st, RZ (-22)) else
    let '(t, r) := connect_udp w (sock_at (u_udp st) (unmark fd)) ip port in
    (with_udp st (upd (u_udp st) (unmark fd) t), RZ r)
  else if is_marked fd MARK_ICMP then
    if zlen (u_icmp st) <=? unmark fd then (st, RZ (-22)) else
    let '(t, r) := connect_icmp w (sock_at (u_icmp st) (unmark fd)) ip in
    (with_icmp st (upd (u_icmp st) (unmark fd) t), RZ r)
  else if is_marked fd MARK_TCP then (if zlen (u_tcp st) <=? unmark fd then (st, RZ (-22)) else (st, RTcp)) else (st, RZ (-22)).

(** ** Multicast membership *)
Definition has_mcast (t : sock) (ifx g : Z) : bool := existsb (fun m => (fst m =? g) && (snd m =? ifx)) (s_mc t).
(** mcast_membership_find, wolfip.c:1922-1936 (index) *)
Fixpoint find_mship (l : list mship) (i : nat) (ifx g : Z) : option nat :=
  match l with
  | [] => None
  | m :: l => if (m_group m =? g) && (m_if m =? ifx) && negb (m_refs m =? 0) then Some i else find_mship l (S i) ifx g
  end.
Fixpoint free_mship (l : list mship) (i : nat) : option nat :=
  match l with [] => None | m :: l => if m_refs m =? 0 then Some i else free_mship l (S i) end.
Fixpoint find_join (l : list (Z * Z)) (i : nat) (p : Z * Z -> bool) : option nat :=
  match l with [] => None | m :: l => if p m then Some i else find_join l (S i) p end.

(** igmp_send_report, wolfip.c:4473-4546: the event if a frame is given to the driver *)
Definition igmp_frame (w : world) (i : iface) (id g rec : Z) : option (list Z) :=
  do c <- checksum ([70; 0; 0; 40] ++ be16 id ++ [0; 0; 1; 2; 0; 0] ++ be32 (c_ip (i_conf i)) ++ be32 3758096406 ++ [148; 4; 0; 0]);
  let ip := [70; 0; 0; 40] ++ be16 id ++ [0; 0; 1; 2] ++ be16 c ++ be32 (c_ip (i_conf i)) ++ be32 3758096406 ++ [148; 4; 0; 0] in
  do c <- checksum ([34; 0; 0; 0; 0; 0; 0; 1; rec; 0; 0; 0] ++ be32 g);
  let ig := [34; 0] ++ be16 c ++ [0; 0; 0; 1; rec; 0; 0; 0] ++ be32 g in
  let eth := if i_noneth i then repeat 0 14 else [1; 0; 94; 0; 0; 22] ++ i_mac i ++ be16 2048 in
  Some (eth ++ ip ++ ig).
Definition igmp_send_report (w : world) (st : ust) (ifx g rec : Z) : option (ust * list uev) :=
  if negb (ip_is_multicast g) then Some (st, []) else
  match nth_error (w_ifs w) (Z.to_nat ifx) with
  | None => Some (st, [])
  | Some i =>
      if c_ip (i_conf i) =? 0 then Some (st, []) else
      do f <- igmp_frame w i (u_id st) g rec;
      let st := with_id st (u16 (u_id st + 1)) in
      if w_mtu w ifx <? zlen f then Some (st, []) else Some (st, [UIgmp ifx f])
  end.

(** mcast_if_from_addr, wolfip.c:7260-7280 *)
Definition mcast_if_from_addr (w : world) (if_addr g : Z) : option Z :=
  if negb (ip_is_multicast g) then None else
  if if_addr =? 0 then
    let i := route_for_ip w g in if negb (conf_ip w i =? 0) then Some i else None
  else let '(i, ok) := if_for_local_ip w if_addr in if ok : bool then Some i else None.

(** udp_mcast_join, wolfip.c:7282-7326, on UDP slot [n] *)
Definition mcast_join (w : world) (st : ust) (n g ifx : Z) : option (ust * Z * list uev) :=
  let t := sock_at (u_udp st) n in
  if negb (ip_is_multicast g) || (zlen (w_ifs w) <=? ifx) then Some (st, -22, []) else
  if has_mcast t ifx g then Some (st, -22, []) else
  match find_join (s_mc t) 0 (fun m => fst m =? 0) with
  | None => Some (st, -12, [])
  | Some slot =>
      match (match find_mship (u_mc st) 0 ifx g with Some j => Some j | None => free_mship (u_mc st) 0 end) with
      | None => Some (st, -12, [])
      | Some j =>
          let m := nth j (u_mc st) mship0 in
          let m := if m_refs m =? 0 then mkM g (u8 ifx) 0 false else m in
          let st := with_udp st (upd (u_udp st) n (set_mc (set_nth slot (g, u8 ifx) (s_mc t)) t)) in
          do (st, evs) <- (if m_refs m =? 0 then igmp_send_report w st ifx g 2 else Some (st, []));
          let m := if m_refs m =? 255 then m else mkM (m_group m) (m_if m) (m_refs m + 1) (m_tmr m) in
          Some (with_mc st (set_nth j m (u_mc st)), 0, evs)
      end
  end.
(** udp_mcast_drop, wolfip.c:7328-7359 *)
Definition mcast_drop (w : world) (st : ust) (n g ifx : Z) : option (ust * Z * list uev) :=
  let t := sock_at (u_udp st) n in
  if negb (ip_is_multicast g) || (zlen (w_ifs w) <=? ifx) then Some (st, -22, []) else
  match find_join (s_mc t) 0 (fun m => (fst m =? g) && (snd m =? ifx)) with
  | None => Some (st, -22, [])
  | Some slot =>
      let st := with_udp st (upd (u_udp st) n (set_mc (set_nth slot (0, 0) (s_mc t)) t)) in
      match find_mship (u_mc st) 0 ifx g with
      | None => Some (st, 0, [])
      | Some j =>
          let m := nth j (u_mc st) mship0 in
          if m_refs m - 1 =? 0 then
            do (st, evs) <- igmp_send_report w st ifx g 3;
            Some (with_mc st (set_nth j mship0 (u_mc st)), 0, evs)
          else Some (with_mc st (set_nth j (mkM (m_group m) (m_if m) (m_refs m - 1) (m_tmr m)) (u_mc st)), 0, [])
      end
  end.
(** udp_mcast_drop_all, wolfip.c:7361-7372: slots i = 0..3 of udp.mcast[] *)
Fixpoint mcast_drop_all (w : world) (st : ust) (n : Z) (i todo : nat) : option (ust * list uev) :=
  match todo with
  | O => Some (st, [])
  | S todo =>
      let '(g, ifx) := nth i (s_mc (sock_at (u_udp st) n)) (0, 0) in
      do (st, e1) <- (if g =? 0 then Some (st, []) else do (st, _, e) <- mcast_drop w st n g ifx; Some (st, e));
      do (st, e2) <- mcast_drop_all w st n (S i) todo;
      Some (st, e1 ++ e2)
  end.

(** ** close(), wolfip.c:6139-6175, 7662-7755 *)
Definition close (w : world) (st : ust) (fd : Z) : option (ust * res * list uev) :=
  match decode st fd with
  | inl e => Some (st, RZ e, [])
  | inr (FTcp, i) =>
      if s_closed (sock_at (u_tcp st) i) then Some (with_tcp st (upd (u_tcp st) i sock0), RZ 0, []) else Some (st, RTcp, [])
  | inr (FUdp, i) =>
      do (st, evs) <- (if s_open (sock_at (u_udp st) i) then mcast_drop_all w st i 0 4 else Some (st, []));
      Some (with_udp st (upd (u_udp st) i sock0), RZ 0, evs)
  | inr (FIcmp, i) => Some (with_icmp st (upd (u_icmp st) i sock0), RZ 0, [])
  end.

(** ** Reception *)
(** wolfip.c:2373-2460 wolfIP_send_port_unreachable *)
Definition send_port_unreachable (w : world) (st : ust) (ifx : Z) (f : list Z) : option (ust * list uev) :=
  match nth_error (w_ifs w) (Z.to_nat ifx) with
  | None => Some (st, [])
  | Some i =>
      let ihl := let h := Z.land (zget f 14) 15 * 4 in if h <? 20 then 20 else h in
      let n := if 68 <? ihl + 8 then 68 else ihl + 8 in
      do quoted <- mread f 14 n;
      do icmp <- fill_checksum ([3; 3; 0; 0; 0; 0; 0; 0] ++ quoted) 2;
      do ip <- iphdr_set_checksum ([69; zget f 15] ++ be16 (u16 (28 + n)) ++ be16 (u_id st) ++ [64; 0; 64; 1; 0; 0] ++
                                   be32 (c_ip (i_conf i)) ++ slice f 26 4);
      let eth := if i_noneth i then repeat 0 14 else slice f 6 6 ++ i_mac i ++ be16 2048 in
      let g := eth ++ ip ++ icmp in
      let st := with_id st (u16 (u_id st + 1)) in
      if w_fsend w ifx g then Some (st, []) else
      if w_mtu w ifx <? zlen g then Some (st, []) else Some (st, [UUnreach ifx g])
  end.

(** wolfip.c:2667-2706 (the same three tests precede in ip_recv 10415-10421); then the filter 2711-2713 *)
Definition udp_ok (w : world) (ifx : Z) (f : list Z) : option bool :=
  let len := zlen f in
  if len <? 42 then Some false else
  if len <? 14 + rd16 f 16 then Some false else
  if rd16 f 38 <? 8 then Some false else
  if len - 14 - 20 <? rd16 f 38 then Some false else
  if (rd16 f 16 <? 20) || (u16 (rd16 f 16 - 20) <? rd16 f 38) then Some false else
  do ck <- (if rd16 f 40 =? 0 then Some true else
            do b <- mread f 34 (rd16 f 38);
            transport_verify (pseudo (slice f 26 4) (slice f 30 4) 17 (rd16 f 38)) b);
  if negb ck then Some false else Some (negb (w_frecv w ifx f)).

(** wolfip.c:2724-2741 *)
Definition udp_match (w : world) (ifx : Z) (f : list Z) (t : sock) : bool :=
  let dst := rd32 f 30 in
  let src := rd32 f 26 in
  let peer := negb (s_conn t) || (((s_dst t =? 0) || (s_dst t =? rd16 f 34)) && ((s_remote t =? 0) || (s_remote t =? src))) in
  let am := ((s_local t =? 0) && w_dhcp w) || ((s_local t =? dst) && peer) in
  let am := if ip_is_multicast dst
            then has_mcast t ifx dst && (negb (s_conn t) || (s_remote t =? 0) || (s_remote t =? src) || (s_remote t =? dst))
            else am in
  (s_src t =? rd16 f 36) && am.

(** fifo_push into the receive buffer, wolfip.c:2755-2758 and 2857-2860 *)
Definition push_rx (t : sock) (f : list Z) : option sock :=
  do (q, r) <- fifo_push (s_rx t) f;
  Some (if r =? 0 then set_rx q (zget f 22) t else set_rx q (s_ttl t) t).

(** the loop 2714-2760.  The test frame_len < expected_len (2748) is dead: 2676
    has already returned in that case; it is left out. *)
Fixpoint udp_deliver (w : world) (ifx : Z) (f : list Z) (l : list sock) : option (list sock * bool) :=
  match l with
  | [] => Some ([], false)
  | t :: l =>
      do t' <- (if udp_match w ifx f t then push_rx (if s_local t =? 0 then set_if (u8 ifx) t else t) f else Some t);
      do (l', m) <- udp_deliver w ifx f l;
      Some (t' :: l', udp_match w ifx f t || m)
  end.

(** wolfip.c:2657-2776 udp_try_recv *)
Definition udp_recv (w : world) (st : ust) (ifx : Z) (f : list Z) : option (ust * list uev) :=
  do ok <- udp_ok w ifx f;
  if negb ok then Some (st, []) else
  do (l, matched) <- udp_deliver w ifx f (u_udp st);
  let st := with_udp st l in
  if matched : bool then Some (st, []) else
  let dst := rd32 f 30 in
  let src := rd32 f 26 in
  if negb (dst =? 0) && negb (src =? 0) && negb (ip_is_broadcast (w_confs w) dst) && negb (ip_is_broadcast (w_confs w) src) &&
     negb (ip_is_multicast dst) && negb (ip_is_multicast src) && snd (if_for_local_ip w dst)
  then send_port_unreachable w st ifx f else Some (st, []).

(** wolfip.c:2836-2862 icmp_try_recv *)
Definition icmp_match (f : list Z) (t : sock) : bool :=
  s_open t && ((s_local t =? 0) || (s_local t =? rd32 f 30)) && ((s_src t =? 0) || (s_src t =? rd16 f 38)) &&
  ((s_remote t =? 0) || (s_remote t =? rd32 f 26)) && negb (zlen f <? rd16 f 16 + 14).
Fixpoint icmp_deliver (f : list Z) (l : list sock) : option (list sock) :=
  match l with
  | [] => Some []
  | t :: l =>
      do t' <- (if icmp_match f t then push_rx t f else Some t);
      do l' <- icmp_deliver f l;
      Some (t' :: l')
  end.
(** the echo reply built in place, wolfip.c:8261-8281 *)
Definition echo_reply (i : iface) (id : Z) (f : list Z) : option (list Z) :=
  do m1 <- mwrite f 34 [0; 0];
  do body <- mread m1 34 (rd16 f 16 - 20);
  do body <- fill_checksum body 2;
  do m2 <- mwrite m1 34 body;
  do m3 <- mwrite m2 26 (slice f 30 4 ++ slice f 26 4);
  do m4 <- mwrite m3 22 [64];
  do m5 <- mwrite m4 18 (be16 id);
  do m6 <- mwrite m5 20 [64; 0];
  do ip <- iphdr_set_checksum (skipn 14 m6);
  Some ((if i_noneth i then firstn 14 m6 else slice f 6 6 ++ i_mac i ++ be16 2048) ++ ip).
(** wolfip.c:8211-8318 icmp_input *)
Definition icmp_input (w : world) (st : ust) (ifx : Z) (f : list Z) : option (ust * list uev) :=
  let len := zlen f in
  if len <? 42 then Some (st, []) else
  if rd16 f 16 <? 28 then Some (st, []) else
  if len <? 14 + rd16 f 16 then Some (st, []) else
  do body <- mread f 34 (rd16 f 16 - 20);
  do ck <- checksum body;
  if negb (ck =? 0) then Some (st, []) else
  if w_frecv w ifx f then Some (st, []) else
  let dst := rd32 f 30 in
  let group := ip_is_broadcast (w_confs w) dst || ip_is_multicast dst in
  let mine := snd (if_for_local_ip w dst) in
  if zget f 34 =? 0 then
    if group || negb mine then Some (st, []) else
    do l <- icmp_deliver f (u_icmp st); Some (with_icmp st l, [])
  else if negb (w_dhcp w) && (zget f 34 =? 8) then
    if group || negb mine then Some (st, []) else
    match nth_error (w_ifs w) (Z.to_nat ifx) with
    | None => Some (with_id st (u16 (u_id st + 1)), [])
    | Some i =>
        do g <- echo_reply i (u_id st) f;
        let st := with_id st (u16 (u_id st + 1)) in
        if w_fsend w ifx g then Some (st, []) else
        if w_mtu w ifx <? zlen g then Some (st, []) else Some (st, [UEcho ifx g])
    end
  else
    do l <- icmp_deliver f (u_icmp st); Some (with_icmp st l, [UTcpErr f]).

(** wolfip.c:4578-4655 igmp_input; [ins j]: timers_binheap_insert succeeds for slot j *)
Fixpoint arm (l : list mship) (j : nat) (ifx g : Z) (ins : nat -> bool) : list mship :=
  match l with
  | [] => []
  | m :: l =>
      (if (m_refs m =? 0) || negb (m_if m =? ifx) || (negb (g =? 0) && negb (g =? m_group m)) || m_tmr m then m
       else mkM (m_group m) (m_if m) (m_refs m) (ins j)) :: arm l (S j) ifx g ins
  end.
Definition igmp_input (st : ust) (ifx : Z) (f : list Z) (ins : nat -> bool) : option ust :=
  if zlen f <? 42 then Some st else
  if (rd16 f 16 <? 28) || (zlen f <? 14 + rd16 f 16) then Some st else
  do b <- mread f 34 (rd16 f 16 - 20);
  do ck <- checksum b;
  if negb (ck =? 0) then Some st else
  if negb (zget f 34 =? 17) then Some st else
  if negb (zget f 22 =? 1) then Some st else
  let g := rd32 f 38 in
  if negb (g =? 0) && negb (ip_is_multicast g) then Some st else
  let dst := rd32 f 30 in
  if negb (dst =? 3758096385) && negb (dst =? g) then Some st else
  Some (with_mc st (arm (u_mc st) 0 ifx g ins)).
(** wolfip.c:4567-4576 igmp_report_timer_cb of slot [j] *)
Definition igmp_timer (w : world) (st : ust) (j : nat) : option (ust * list uev) :=
  let m := nth j (u_mc st) mship0 in
  if negb (m_tmr m) then Some (st, []) else
  let st := with_mc st (set_nth j (mkM (m_group m) (m_if m) (m_refs m) false) (u_mc st)) in
  if m_refs m =? 0 then Some (st, []) else igmp_send_report w st (m_if m) (m_group m) 2.

(** ** recvfrom(), wolfip.c:7086-7160; [blen]: size of the caller's buffer.
    NULL/short address arguments are refused first (-22, omitted). *)
Definition recv_udp (t : sock) (blen : Z) : option (sock * res) :=
  let '(q, n) := fifo_len (s_rx t) in
  if n =? 0 then Some (set_rx q (s_ttl t) t, RZ (-11)) else
  let '(q, p) := fifo_peek q in
  match p with
  | None => Some (set_rx q (s_ttl t) t, RZ (-11))
  | Some pos =>
      do d <- load_desc q pos;
      do hdr <- mread (f_data q) (d_pos d + DESC) 42;
      if rd16 hdr 38 <? 8 then do (q, _) <- fifo_pop q; Some (set_rx q (s_ttl t) t, RZ (-22)) else
      let src := rd32 hdr 26 in
      let t := if (s_remote t =? 0) && negb (src =? s_local t) then set_peer src (s_dst t) t else t in
      let n := rd16 hdr 38 - 8 in
      if blen <? n then do (q, _) <- fifo_pop q; Some (set_rx q (s_ttl t) t, RZ (-22)) else
      do b <- mread (f_data q) (d_pos d + DESC + 42) n;
      do (q, _) <- fifo_pop q;
      Some (set_rx q (s_ttl t) t, RData b src (rd16 hdr 34))
  end.
Definition recv_icmp (t : sock) (blen : Z) : option (sock * res) :=
  let '(q, p) := fifo_peek (s_rx t) in
  match p with
  | None => Some (set_rx q (s_ttl t) t, RZ (-11))
  | Some pos =>
      do d <- load_desc q pos;
      do hdr <- mread (f_data q) (d_pos d + DESC) 42;
      let n := u32 (rd16 hdr 16 - 20) in
      if blen <? n then do (q, _) <- fifo_pop q; Some (set_rx q (s_ttl t) t, RZ (-1)) else
      do b <- mread (f_data q) (d_pos d + DESC + 34) n;
      do (q, _) <- fifo_pop q;
      Some (set_rx q (s_ttl t) t, RData b (rd32 hdr 26) 0)
  end.
Definition recvfrom (st : ust) (fd blen : Z) : option (ust * res) :=
  match decode st fd with
  | inl e => Some (st, RZ e)
  | inr (FTcp, _) => Some (st, RTcp)
  | inr (FUdp, i) => do (t, r) <- recv_udp (sock_at (u_udp st) i) blen; Some (with_udp st (upd (u_udp st) i t), r)
  | inr (FIcmp, i) => do (t, r) <- recv_icmp (sock_at (u_icmp st) i) blen; Some (with_icmp st (upd (u_icmp st) i t), r)
  end.

(** ** sendto() *)
(** ip_output_add_header, wolfip.c:4770-4820, over the transport bytes [b] (checksum at [off]);
    14 bytes of zero for the link header *)
Definition add_header (t : sock) (proto id : Z) (b : list Z) : option (list Z) :=
  let ttl := if (proto =? 17) && ip_is_multicast (s_remote t) then s_mttl t else 64 in
  do ip <- iphdr_set_checksum ([69; s_tos t] ++ be16 (u16 (20 + zlen b)) ++ be16 id ++ [0; 0; ttl; proto; 0; 0] ++
                               be32 (s_local t) ++ be32 (s_remote t));
  do b <- (if proto =? 17 then fill_udp (pseudo (be32 (s_local t)) (be32 (s_remote t)) proto (u16 (zlen b))) b 6
           else fill_checksum b 2);
  Some (repeat 0 14 ++ ip ++ b).
(** wolfip.c:6718-6783; [rnd]: wolfIP_getrandom().  [to]: destination, if given. *)
Definition sendto_udp (w : world) (id : Z) (t : sock) (to : option (Z * Z)) (b : list Z) (rnd : Z) : option (sock * Z * Z) :=
  if (s_dst t =? 0) && (match to with None => true | _ => false end) then Some (t, id, -1) else
  let t := match to with Some (ip, port) => set_peer ip port t | None => t end in
  if (s_dst t =? 0) || (s_remote t =? 0) then Some (t, id, -1) else
  let t := if s_src t =? 0 then let p := u16 rnd in set_src (if p <? 1024 then p + 1024 else p) t else t in
  let ifx := route_for_ip w (s_remote t) in
  let ifx := if ip_is_multicast (s_remote t) && s_mifset t then s_mif t else ifx in
  let t := set_if (u8 ifx) t in
  let t := if s_local t =? 0 then set_local (pick_local w ifx) t else t in
  let mtu := sock_ip_mtu w t in
  if (mtu <=? 28) || (mtu - 28 <? zlen b) then Some (t, id, -1) else
  if negb (fifo_can_push_len (s_tx t) (42 + zlen b)) then Some (t, id, -11) else
  do f <- add_header t 17 id (be16 (s_src t) ++ be16 (s_dst t) ++ be16 (u16 (zlen b + 8)) ++ [0; 0] ++ b);
  do (q, r) <- fifo_push (s_tx t) f;
  Some (set_tx q t, u16 (id + 1), if r <? 0 then -11 else zlen b).
(** wolfip.c:6784-6845 *)
Definition sendto_icmp (w : world) (id : Z) (t : sock) (to : option (Z * Z)) (b : list Z) (rnd : Z) : option (sock * Z * Z) :=
  let t := match to with Some (ip, _) => set_peer ip (s_dst t) t | None => t end in
  if s_remote t =? 0 then Some (t, id, -1) else
  let t := if s_src t =? 0 then let p := u16 rnd in set_src (if p =? 0 then 1 else p) t else t in
  let r := if negb (s_bound t =? 0) then
             let '(ifx, ok) := if_for_local_ip w (s_bound t) in
             if ok : bool then Some (set_local (s_bound t) (set_if (u8 ifx) t)) else None
           else
             let ifx := route_for_ip w (s_remote t) in
             let t := set_if (u8 ifx) t in
             Some (if s_local t =? 0 then set_local (pick_local w ifx) t else t) in
  match r with
  | None => Some (t, id, -22)
  | Some t =>
      let mtu := sock_ip_mtu w t in
      if (mtu <=? 20) || (zlen b <? 8) || (mtu - 20 <? zlen b) then Some (t, id, -22) else
      if negb (fifo_can_push_len (s_tx t) (34 + zlen b)) then Some (t, id, -11) else
      do b' <- (if zget b 0 =? 8 then mwrite b 4 (be16 (s_src t)) else Some b);
      do f <- add_header t 1 id b';
      do (q, r) <- fifo_push (s_tx t) f;
      Some (set_tx q t, u16 (id + 1), if r <? 0 then -11 else zlen b)
  end.
Definition sendto (w : world) (st : ust) (fd : Z) (to : option (Z * Z)) (b : list Z) (rnd : Z) : option (ust * res) :=
  match decode st fd with
  | inl e => Some (st, RZ e)
  | inr (FTcp, _) => Some (st, RTcp)
  | inr (FUdp, i) =>
      do (t, id, r) <- sendto_udp w (u_id st) (sock_at (u_udp st) i) to b rnd;
      Some (with_id (with_udp st (upd (u_udp st) i t)) id, RZ r)
  | inr (FIcmp, i) =>
      do (t, id, r) <- sendto_icmp w (u_id st) (sock_at (u_icmp st) i) to b rnd;
      Some (with_id (with_icmp st (upd (u_icmp st) i t)) id, RZ r)
  end.

(** ** The transmit flush, wolfip.c:11453-11560.
    What the environment answers during one call: [o_mac k]: arp_lookup of the
    k-th frame, [o_drv k]: the driver takes it. *)
Record oracle := mkO { o_mac : nat -> option (list Z); o_drv : nat -> bool }.
(** the link destination of a frame for [dst] out of socket [t]: interface, next hop *)
Definition tx_route (w : world) (udp : bool) (t : sock) (dst : Z) : Z * Z :=
  if udp && ip_is_multicast dst && s_mifset t then (s_mif t, dst) else
  match route_lookup (w_lb w) (w_confs w) (w_routes w) dst with Some r => r | None => (sock_if w t, dst) end.
(** 11493-11513: the MAC to use; [inr]: an ARP request is needed *)
Definition tx_mac (w : world) (udp : bool) (ifx nh dst : Z) (arp : option (list Z)) : list Z + unit :=
  if is_loopback_if (w_lb w) ifx then inl (match nth_error (w_ifs w) (Z.to_nat ifx) with Some i => i_mac i | None => repeat 0 6 end)
  else if is_noneth w ifx then inl (repeat 0 6)
  else if ip_is_broadcast (w_confs w) nh then inl (repeat 255 6)
  else if udp && ip_is_multicast dst then
    inl [1; 0; 94; Z.land (Z.shiftr dst 16) 127; Z.land (Z.shiftr dst 8) 255; Z.land dst 255]
  else match arp with Some m => inl m | None => inr tt end.
(** one iteration on the head of slot [i]; [true]: continue with the next one.
    The driver refuses a frame longer than the link's MTU (wolfIP_ll_send_frame, 1726-1786). *)
Definition flush_one (w : world) (udp : bool) (st : ust) (i : Z) (pos : Z) (o : oracle) (k : nat) : option (ust * bool * list uev) :=
  let get (st : ust) := sock_at (if udp then u_udp st else u_icmp st) i in
  let put (st : ust) (q : fifo) := if udp then with_udp st (upd (u_udp st) i (set_tx q (get st)))
                                   else with_icmp st (upd (u_icmp st) i (set_tx q (get st))) in
  let q := s_tx (get st) in
  do e <- load_entry q pos;
  let f := en_data e in
  let dst := rd32 f 30 in
  let '(ifx, nh) := tx_route w udp (get st) dst in
  match tx_mac w udp ifx nh dst (o_mac o k) with
  | inr _ => Some (st, false, [UArpReq ifx nh])
  | inl mac =>
      let f := match nth_error (w_ifs w) (Z.to_nat ifx) with
               | Some x => if i_noneth x then f else mac ++ i_mac x ++ be16 2048 ++ skipn 14 f
               | None => f end in
      do q <- fifo_update q pos (en_flags e) (en_time e) f;
      let st := put st q in
      if w_fsend w ifx f then Some (st, false, []) else
      match nth_error (w_ifs w) (Z.to_nat ifx) with
      | None => Some (st, false, [])
      | Some _ =>
          if (w_mtu w ifx <? zlen f) || negb (o_drv o k) then Some (st, false, []) else
          do (st, e2) <- (if udp && ip_is_multicast dst && s_mloop (get st) then udp_recv w st ifx f else Some (st, []));
          do (q, _) <- fifo_pop (s_tx (get st));
          Some (put st q, true, UTx ifx f :: e2)
      end
  end.
Fixpoint flush_sock (fuel : nat) (w : world) (udp : bool) (st : ust) (i : Z) (o : oracle) (k : nat) : option (ust * nat * list uev) :=
  match fuel with
  | O => None
  | S fuel =>
      let t := sock_at (if udp then u_udp st else u_icmp st) i in
      let '(q, p) := fifo_peek (s_tx t) in
      let st := if udp then with_udp st (upd (u_udp st) i (set_tx q t)) else with_icmp st (upd (u_icmp st) i (set_tx q t)) in
      match p with
      | None => Some (st, k, [])
      | Some pos =>
          do (st, go, e1) <- flush_one w udp st i pos o k;
          if go : bool then do (st, k, e2) <- flush_sock fuel w udp st i o (S k); Some (st, k, e1 ++ e2)
          else Some (st, S k, e1)
      end
  end.
Fixpoint flush_all (w : world) (udp : bool) (st : ust) (i : Z) (todo : nat) (o : oracle) (k : nat) : option (ust * nat * list uev) :=
  match todo with
  | O => Some (st, k, [])
  | S todo =>
      do (st, k, e1) <- flush_sock 2051 w udp st i o k;
      do (st, k, e2) <- flush_all w udp st (i + 1) todo o k;
      Some (st, k, e1 ++ e2)
  end.
(** wolfIP_poll, wolfip.c:11700-11703: UDP sockets, then ICMP sockets *)
Definition flush (w : world) (st : ust) (o : oracle) : option (ust * list uev) :=
  do (st, k, e1) <- flush_all w true st 0 (length (u_udp st)) o 0;
  do (st, _, e2) <- flush_all w false st 0 (length (u_icmp st)) o k;
  Some (st, e1 ++ e2).

(** ** setsockopt(), wolfip.c:7374-7512, for the options that matter here *)
Inductive sopt := SJoin (g ifaddr : Z) | SLeave (g ifaddr : Z) | SMcIf (ifaddr : Z) | SMcTtl (v : Z) | SMcLoop (v : bool) | STos (v : Z).
Definition setsockopt (w : world) (st : ust) (fd : Z) (s : sopt) : option (ust * res * list uev) :=
  match decode st fd with
  | inl _ => Some (st, RZ (-22), [])
  | inr (k, i) =>
      let t := sock_at (socks st k) i in
      let put t := set_socks st k (upd (socks st k) i t) in
      match s, is_marked fd MARK_UDP, k with
      | STos v, _, _ => if (v <? 0) || (255 <? v) then Some (st, RZ (-22), [])
                        else Some (put (set_mopt (s_mttl t) (s_mloop t) (s_mifset t) (s_mif t) v t), RZ 0, [])
      | SJoin g a, true, FUdp =>
          match mcast_if_from_addr w a g with None => Some (st, RZ (-22), []) | Some ifx =>
            do (st, r, e) <- mcast_join w st i g ifx; Some (st, RZ r, e) end
      | SLeave g a, true, FUdp =>
          match mcast_if_from_addr w a g with None => Some (st, RZ (-22), []) | Some ifx =>
            do (st, r, e) <- mcast_drop w st i g ifx; Some (st, RZ r, e) end
      | SMcIf a, true, FUdp =>
          if a =? 0 then Some (put (set_mopt (s_mttl t) (s_mloop t) false 0 (s_tos t) t), RZ 0, [])
          else match mcast_if_from_addr w a 3758096385 with None => Some (st, RZ (-22), []) | Some ifx =>
            Some (put (set_mopt (s_mttl t) (s_mloop t) true (u8 ifx) (s_tos t) t), RZ 0, []) end
      | SMcTtl v, true, FUdp =>
          if (v <? 0) || (255 <? v) then Some (st, RZ (-22), [])
          else Some (put (set_mopt v (s_mloop t) (s_mifset t) (s_mif t) (s_tos t) t), RZ 0, [])
      | SMcLoop b, true, FUdp => Some (put (set_mopt (s_mttl t) b (s_mifset t) (s_mif t) (s_tos t) t), RZ 0, [])
      | _, _, _ => Some (st, RZ 0, [])
      end
  end.

(** ** Histories *)
Inductive uop :=
| OSocket (k : fam) | OBind (fd ip port : Z) (fam_ok veto : bool) | OConnect (fd ip port : Z)
| OClose (fd : Z) | OOpt (fd : Z) (s : sopt)
| OSend (fd : Z) (to : option (Z * Z)) (b : list Z) (rnd : Z) | ORecv (fd blen : Z)
| OUdp (ifx : Z) (f : list Z) | OIcmp (ifx : Z) (f : list Z)
| OIgmp (ifx : Z) (f : list Z) (ins : nat -> bool) | OTimer (j : nat) | OFlush (o : oracle).
Definition ustep (w : world) (st : ust) (o : uop) : option (ust * res * list uev) :=
  match o with
  | OSocket k => let '(st, r) := socket st k in Some (st, r, [])
  | OBind fd ip port f v => let '(st, r) := bind w st fd ip port f v in Some (st, r, [])
  | OConnect fd ip port => let '(st, r) := connect w st fd ip port in Some (st, r, [])
  | OClose fd => close w st fd
  | OOpt fd s => setsockopt w st fd s
  | OSend fd to b rnd => do (st, r) <- sendto w st fd to b rnd; Some (st, r, [])
  | ORecv fd blen => do (st, r) <- recvfrom st fd blen; Some (st, r, [])
  | OUdp ifx f => do (st, e) <- udp_recv w st ifx f; Some (st, RVoid, e)
  | OIcmp ifx f => do (st, e) <- icmp_input w st ifx f; Some (st, RVoid, e)
  | OIgmp ifx f ins => do st <- igmp_input st ifx f ins; Some (st, RVoid, [])
  | OTimer j => do (st, e) <- igmp_timer w st j; Some (st, RVoid, e)
  | OFlush o => do (st, e) <- flush w st o; Some (st, RVoid, e)
  end.
