(** Raw (AF_INET/SOCK_RAW) and packet (AF_PACKET/SOCK_RAW) sockets.
    Source: /repo/src/wolfip.c:1271-1320 (structs), 2161-2185 (raw_route_for_ip),
    2788-2832 (allocation), 2953-3036 (raw_try_recv, packet_try_recv), 6179-6195
    (close), 6217-6240 (slot lookup), 6275-6300 (socket), 6391-6413 (connect),
    6849-7000 (sendto), 7157-7240 (recvfrom), 7379-7397 (setsockopt), 7754-7769
    (close), 7965-7982 and 8120-8136 (bind), 11567-11665 (flush).
    Configuration: ETHERNET, WOLFIP_RAWSOCKETS, WOLFIP_PACKET_SOCKETS; VLAN only as
    the [wild] argument of packet_try_recv.  Operations take the slot number
    (SOCKET_UNMARK of a descriptor with the right mark).  Not modelled: callbacks and
    event flags, socket address buffers that are NULL or too short, the MAC copy in
    [macs] (never read), getsockname of a packet socket.
    Ethernet types and packet protocols are read big endian, as on the wire.
    [None] is undefined behaviour. *)
From Verif Require Import Base ListUtil Checksum Route Arp HttpUrl Fifo Forward Udp.

(** struct rawsocket, wolfip.c:1271-1292; [r_in]: IP_RECVTTL is set. *)
Record rsock := mkR { r_used : bool; r_proto : Z; r_hdr : bool; r_dont : bool; r_in : bool; r_bound : Z; r_local : Z; r_remote : Z;
  r_if : Z; r_rx : fifo; r_tx : fifo; r_ttl : Z }.
(** struct packetsocket, wolfip.c:1300-1313; [p_bind]: bind_addr.sll_ifindex. *)
Record psock := mkP { p_used : bool; p_proto : Z; p_if : Z; p_bind : Z; p_rx : fifo; p_tx : fifo }.
Definition raw0 : rsock := mkR false 0 false false false 0 0 0 0 (fifo_init [] 0) (fifo_init [] 0) 0.
Definition pkt0 : psock := mkP false 0 0 0 (fifo_init [] 0) (fifo_init [] 0).
Record rst := mkT { t_raw : list rsock; t_pkt : list psock; t_id : Z }.
(** WOLFIP_MAX_RAWSOCKETS 4, WOLFIP_MAX_PACKETSOCKETS 2 (config.h:42-58) *)
Definition rst0 : rst := mkT (repeat raw0 4) (repeat pkt0 2) 0.
Definition LINK_MTU : Z := 1536.

Definition rset_q rx tx (t : rsock) := mkR (r_used t) (r_proto t) (r_hdr t) (r_dont t) (r_in t) (r_bound t) (r_local t) (r_remote t) (r_if t) rx tx (r_ttl t).
Definition rset_ttl v (t : rsock) := mkR (r_used t) (r_proto t) (r_hdr t) (r_dont t) (r_in t) (r_bound t) (r_local t) (r_remote t) (r_if t) (r_rx t) (r_tx t) v.
Definition rset_if v (t : rsock) := mkR (r_used t) (r_proto t) (r_hdr t) (r_dont t) (r_in t) (r_bound t) (r_local t) (r_remote t) v (r_rx t) (r_tx t) (r_ttl t).
Definition rset_addr b l r i (t : rsock) := mkR (r_used t) (r_proto t) (r_hdr t) (r_dont t) (r_in t) b l r i (r_rx t) (r_tx t) (r_ttl t).
Definition rset_opt h d n (t : rsock) := mkR (r_used t) (r_proto t) h d n (r_bound t) (r_local t) (r_remote t) (r_if t) (r_rx t) (r_tx t) (r_ttl t).
Definition pset_q rx tx (t : psock) := mkP (p_used t) (p_proto t) (p_if t) (p_bind t) rx tx.
Definition pset_if v (t : psock) := mkP (p_used t) (p_proto t) v (p_bind t) (p_rx t) (p_tx t).

Definition raw_at (st : rst) (i : Z) : rsock := nth (Z.to_nat i) (t_raw st) raw0.
Definition pkt_at (st : rst) (i : Z) : psock := nth (Z.to_nat i) (t_pkt st) pkt0.
(** wolfIP_rawsocket_from_fd, wolfIP_packetsocket_from_fd (6217-6240): the slot exists and is in use *)
Definition raw_ok (st : rst) (i : Z) : bool := (0 <=? i) && (i <? zlen (t_raw st)) && r_used (raw_at st i).
Definition pkt_ok (st : rst) (i : Z) : bool := (0 <=? i) && (i <? zlen (t_pkt st)) && p_used (pkt_at st i).
Definition put_raw (st : rst) (i : Z) (t : rsock) : rst := mkT (set_nth (Z.to_nat i) t (t_raw st)) (t_pkt st) (t_id st).
Definition put_pkt (st : rst) (i : Z) (t : psock) : rst := mkT (t_raw st) (set_nth (Z.to_nat i) t (t_pkt st)) (t_id st).

(** What leaves the stack. *)
Inductive rev := TxRaw (slot ifx : Z) (f : list Z)   (* raw socket's frame taken by the driver *)
| TxPkt (slot ifx : Z) (f : list Z)                  (* packet socket's *)
| LostRaw (slot ifx : Z) (f : list Z)                (* given to an interface that did not take it *)
| LostPkt (slot ifx : Z) (f : list Z)
| VetoPkt (slot ifx : Z) (f : list Z)                (* discarded: the filter said no *)
| AskArp (ifx ip : Z).                               (* arp_request() *)
Inductive rres := XZ (z : Z) | XData (b : list Z) (src : Z) | XFrame (b : list Z) (ifx ty : Z) (mac : list Z) | XVoid.

(** ** socket() and close() *)
Fixpoint free_raw (l : list rsock) (i : Z) : option Z :=
  match l with [] => None | t :: l => if r_used t then free_raw l (i + 1) else Some i end.
Fixpoint free_pkt (l : list psock) (i : Z) : option Z :=
  match l with [] => None | t :: l => if p_used t then free_pkt l (i + 1) else Some i end.
(** wolfip.c:2788-2807, 6275-6287; [hdrincl]: protocol == IPPROTO_RAW where that is defined.
    The result is the slot number (the code returns it with the mark added). *)
Definition open_raw (st : rst) (pr : Z) (hdrincl : bool) : rst * rres :=
  match free_raw (t_raw st) 0 with
  | None => (st, XZ (-1))
  | Some i => (put_raw st i (mkR true (u16 pr) hdrincl false false 0 0 0 0 (fresh RXBUF) (fresh TXBUF) 0), XZ i)
  end.
(** wolfip.c:2811-2832, 6289-6297 *)
Definition open_pkt (st : rst) (pr : Z) : rst * rres :=
  match free_pkt (t_pkt st) 0 with
  | None => (st, XZ (-1))
  | Some i => (put_pkt st i (mkP true (u16 pr) 0 0 (fresh RXBUF) (fresh TXBUF)), XZ i)
  end.
(** wolfip.c:6179-6192, 7754-7769 *)
Definition close_raw (st : rst) (i : Z) : rst * rres := if raw_ok st i then (put_raw st i raw0, XZ 0) else (st, XZ (-22)).
Definition close_pkt (st : rst) (i : Z) : rst * rres := if pkt_ok st i then (put_pkt st i pkt0, XZ 0) else (st, XZ (-22)).

(** ** Addresses *)
Fixpoint conn_if (cs : list ipconf) (i d : Z) : option Z :=
  match cs with [] => None | c :: cs => if negb (c_ip c =? 0) && ip_is_local_conf c d then Some i else conn_if cs (i + 1) d end.
(** wolfip.c:2161-2185 *)
Definition raw_route (w : world) (bound d : Z) (dont : bool) : Z :=
  let found := if bound =? 0 then None else let '(i, ok) := if_for_local_ip w bound in if ok : bool then Some i else None in
  match found with
  | Some i => i
  | None => match (if dont then conn_if (w_confs w) 0 d else None) with Some i => i | None => route_for_ip w d end
  end.
(** the source address chosen for a socket routed out of interface [i] (the fragment
    repeated in connect 6401-6411, sendto 6918-6928 and bind 8126-8134) *)
Definition raw_local (w : world) (bound old i : Z) : Z :=
  if negb (bound =? 0) then bound else
  if negb (conf_ip w i =? 0) then conf_ip w i else
  let p := conf_ip w (if w_lb w then 1 else 0) in if negb (p =? 0) then p else old.
(** wolfip.c:7997-8001, 8120-8136 *)
Definition bind_raw (w : world) (st : rst) (i ip : Z) : rst * rres :=
  let '(ifx, ok) := if_for_local_ip w ip in
  if negb (ip =? 0) && negb ok then (st, XZ (-1)) else
  if negb (raw_ok st i) then (st, XZ (-22)) else
  let t := raw_at st i in
  (put_raw st i (rset_addr ip (raw_local w ip (r_local t) ifx) (r_remote t) (u8 ifx) t), XZ 0).
(** wolfip.c:7965-7982 *)
Definition bind_pkt (w : world) (st : rst) (i ifindex pr : Z) : rst * rres :=
  if negb (pkt_ok st i) then (st, XZ (-22)) else
  if (ifindex <? 0) || (zlen (w_ifs w) <=? ifindex) then (st, XZ (-22)) else
  let t := pkt_at st i in (put_pkt st i (mkP (p_used t) pr (u8 ifindex) ifindex (p_rx t) (p_tx t)), XZ 0).
(** wolfip.c:6391-6413 *)
Definition connect_raw (w : world) (st : rst) (i ip : Z) : rst * rres :=
  if negb (raw_ok st i) then (st, XZ (-22)) else
  let t := raw_at st i in
  let ifx := raw_route w (r_bound t) ip (r_dont t) in
  (put_raw st i (rset_addr (r_bound t) (if r_hdr t then r_local t else raw_local w (r_bound t) (r_local t) ifx) ip (u8 ifx) t), XZ 0).
(** wolfip.c:7379-7397 *)
Inductive ropt := HdrIncl (v : bool) | DontRoute (v : bool) | RecvTtl (v : bool).
Definition opt_raw (st : rst) (i : Z) (o : ropt) : rst * rres :=
  if negb (raw_ok st i) then (st, XZ (-22)) else
  let t := raw_at st i in
  (put_raw st i (match o with HdrIncl v => rset_opt v (r_dont t) (r_in t) t | DontRoute v => rset_opt (r_hdr t) v (r_in t) t
                 | RecvTtl v => rset_opt (r_hdr t) (r_dont t) v t end), XZ 0).

(** ** Reception *)
(** wolfip.c:2954-2991, one socket; [p]: the IP packet *)
Definition raw_deliver (ifx : Z) (f p : list Z) (t : rsock) : option rsock :=
  if negb (r_used t) then Some t else
  if negb (r_proto t =? 0) && negb (r_proto t =? zget f 23) then Some t else
  if negb (r_bound t =? 0) && negb (r_bound t =? rd32 f 30) then Some t else
  if negb (r_if t =? 0) && negb (r_if t =? u8 ifx) then Some t else
  do (q, r) <- fifo_push (r_rx t) p;
  Some (if r =? 0 then rset_ttl (zget f 22) (rset_q q (r_tx t) t) else rset_q q (r_tx t) t).
Fixpoint mapo {A} (g : A -> option A) (l : list A) : option (list A) :=
  match l with [] => Some [] | x :: l => do y <- g x; do l <- mapo g l; Some (y :: l) end.
(** [f]: the frame from the link header on, frame_len = its length *)
Definition raw_try_recv (st : rst) (ifx : Z) (f : list Z) : option rst :=
  if zlen f <=? 14 then Some st else
  let n := zlen f - 14 in
  if n <? 20 then Some st else
  let len := rd16 f 16 in
  if len <? 20 then Some st else
  if n <? len then Some st else
  do p <- mread f 14 len;
  do l <- mapo (raw_deliver ifx f p) (t_raw st);
  Some (mkT l (t_pkt st) (t_id st)).
(** wolfip.c:2996-3036 *)
Definition pkt_deliver (ifx : Z) (f : list Z) (wild : bool) (t : psock) : option psock :=
  if negb (p_used t) then Some t else
  if negb (p_proto t =? 0) && negb (p_proto t =? rd16 f 12) then Some t else
  if (if wild then (0 <=? p_bind t) && negb (p_bind t =? ifx) && negb (p_bind t =? 0)
      else (p_bind t <? 0) || negb (p_bind t =? ifx)) then Some t else
  if fifo_space (p_rx t) <? zlen f + 1 + DESC then Some t else
  do (q, r) <- fifo_push (p_rx t) (u8 ifx :: f);
  Some (pset_q q (p_tx t) t).
Definition pkt_try_recv (st : rst) (ifx : Z) (f : list Z) (wild : bool) : option rst :=
  if (LINK_MTU <? zlen f) || (zlen f =? 0) then Some st else
  do l <- mapo (pkt_deliver ifx f wild) (t_pkt st);
  Some (mkT (t_raw st) l (t_id st)).

(** ** recvfrom(); [blen]: size of the caller's buffer *)
(** wolfip.c:7157-7196 *)
Definition recv_raw (t : rsock) (blen : Z) : option (rsock * rres) :=
  let '(q, p) := fifo_peek (r_rx t) in
  match p with
  | None => Some (rset_q q (r_tx t) t, XZ (-11))
  | Some pos =>
      do d <- load_desc q pos;
      if d_len d <? 20 then do (q, _) <- fifo_pop q; Some (rset_q q (r_tx t) t, XZ (-22)) else
      if blen <? d_len d then do (q, _) <- fifo_pop q; let '(q, _) := fifo_peek q in Some (rset_q q (r_tx t) t, XZ (-22)) else
      do b <- mread (f_data q) (d_pos d + DESC) (d_len d);
      do (q, _) <- fifo_pop q; let '(q, _) := fifo_peek q in
      Some (rset_q q (r_tx t) t, XData b (rd32 b 12))
  end.
(** wolfip.c:7198-7240 *)
Definition recv_pkt (t : psock) (blen : Z) : option (psock * rres) :=
  let '(q, p) := fifo_peek (p_rx t) in
  match p with
  | None => Some (pset_q q (p_tx t) t, XZ (-11))
  | Some pos =>
      do d <- load_desc q pos;
      if d_len d =? 0 then Some (pset_q q (p_tx t) t, XZ (-11)) else
      if blen <? d_len d - 1 then do (q, _) <- fifo_pop q; let '(q, _) := fifo_peek q in Some (pset_q q (p_tx t) t, XZ (-22)) else
      do b <- mread (f_data q) (d_pos d + DESC) (d_len d);
      do (q, _) <- fifo_pop q; let '(q, _) := fifo_peek q in
      let f := skipn 1 b in
      Some (pset_q q (p_tx t) t, XFrame f (zget b 0) (rd16 f 12) (firstn 6 (skipn 6 f)))
  end.
Definition recvfrom_raw (st : rst) (i blen : Z) : option (rst * rres) :=
  if negb (raw_ok st i) then Some (st, XZ (-22)) else do (t, r) <- recv_raw (raw_at st i) blen; Some (put_raw st i t, r).
Definition recvfrom_pkt (st : rst) (i blen : Z) : option (rst * rres) :=
  if negb (pkt_ok st i) then Some (st, XZ (-22)) else do (t, r) <- recv_pkt (pkt_at st i) blen; Some (put_pkt st i t, r).

(** ** sendto() *)
(** iphdr_set_checksum (4403-4426) on the frame [f] in a buffer that continues with [junk] *)
Definition set_ipck (f junk : list Z) : option (list Z) :=
  do m <- iphdr_set_checksum (skipn 14 f ++ junk); Some (firstn 14 f ++ firstn (length f - 14) m).
(** Enqueue: wolfip.c:6944-6950 *)
Definition raw_queue (t : rsock) (f : list Z) (n : Z) : option (rsock * Z) :=
  if fifo_space (r_tx t) <? zlen f then Some (t, -11) else
  do (q, r) <- fifo_push (r_tx t) f;
  Some (rset_q (r_rx t) q t, if r <? 0 then -11 else n).
(** wolfip.c:6849-6951.  [to]: the destination, if given; [junk]: what follows the packet in the
    (uninitialised) stack buffer. The returned id: ipcounter_next() was called. *)
Definition send_raw (w : world) (id : Z) (t : rsock) (to : option Z) (b junk : list Z) : option (rsock * Z * Z) :=
  let n := zlen b in
  if n =? 0 then Some (t, id, -22) else
  let t := match to with Some ip => rset_addr (r_bound t) (r_local t) ip (r_if t) t | None => t end in
  let d := r_remote t in
  if LINK_MTU <? 14 + n + (if r_hdr t then 0 else 20) then Some (t, id, -22) else
  if r_hdr t then
    if n <? 20 then Some (t, id, -22) else
    let f := repeat 0 14 ++ b in
    do f <- (if d =? 0 then Some f else do f <- mwrite f 30 (be32 d); set_ipck f junk);
    let d := if d =? 0 then rd32 f 30 else d in
    let t := rset_addr (r_bound t) (rd32 f 26) (if r_remote t =? 0 then d else r_remote t) (r_if t) t in
    if d =? 0 then Some (t, id, -22) else
    let t := rset_if (u8 (raw_route w (r_bound t) d (r_dont t))) t in
    do (t, r) <- raw_queue t f n; Some (t, id, r)
  else
    if d =? 0 then Some (t, id, -22) else
    let ifx := raw_route w (r_bound t) d (r_dont t) in
    let loc := raw_local w (r_bound t) (r_local t) ifx in
    do h <- iphdr_set_checksum ([69; 0] ++ be16 (u16 (n + 20)) ++ be16 id ++ [0; 0; 64; u8 (r_proto t); 0; 0] ++ be32 loc ++ be32 d);
    let t := rset_addr (r_bound t) loc (r_remote t) (u8 ifx) t in
    do (t, r) <- raw_queue t (repeat 0 14 ++ h ++ b) n; Some (t, u16 (id + 1), r).
Definition sendto_raw (w : world) (st : rst) (i : Z) (to : option Z) (b junk : list Z) : option (rst * rres) :=
  if negb (raw_ok st i) then Some (st, XZ (-22)) else
  do (t, id, r) <- send_raw w (t_id st) (raw_at st i) to b junk;
  let st := put_raw st i t in Some (mkT (t_raw st) (t_pkt st) id, XZ r).
(** struct sockaddr_ll as far as sendto reads it *)
Record sll := mkL { l_if : Z; l_proto : Z; l_halen : Z; l_addr : list Z }.
(** wolfip.c:6955-7000 *)
Definition send_pkt (w : world) (t : psock) (to : option sll) (b : list Z) : option (psock * Z) :=
  if (zlen b <? 14) || (LINK_MTU <? zlen b) then Some (t, -22) else
  let ifx := match to with Some a => if (0 <=? l_if a) && (l_if a <? zlen (w_ifs w)) then l_if a else p_if t | None => p_if t end in
  let pr := match to with Some a => if l_proto a =? 0 then p_proto t else l_proto a | None => p_proto t end in
  do f <- (match to with Some a => if 6 <=? l_halen a then mwrite b 0 (firstn 6 (l_addr a)) else Some b | None => Some b end);
  let ifx := if zlen (w_ifs w) <=? ifx then 0 else ifx in
  do f <- (match nth_error (w_ifs w) (Z.to_nat ifx) with Some x => mwrite f 6 (i_mac x) | None => Some f end);
  do f <- (if pr =? 0 then Some f else mwrite f 12 (be16 pr));
  let t := pset_if (u8 ifx) t in
  if fifo_space (p_tx t) <? zlen b then Some (t, -11) else
  do (q, r) <- fifo_push (p_tx t) f;
  Some (pset_q (p_rx t) q t, if r <? 0 then -11 else zlen b).
Definition sendto_pkt (w : world) (st : rst) (i : Z) (to : option sll) (b : list Z) : option (rst * rres) :=
  if negb (pkt_ok st i) then Some (st, XZ (-22)) else
  do (t, r) <- send_pkt w (pkt_at st i) to b; Some (put_pkt st i t, XZ r).

(** ** The transmit flush.  [o_mac k], [o_drv k]: arp_lookup's and the driver's answer in round k. *)
Definition taken (w : world) (ifx : Z) (f : list Z) (ok : bool) : bool :=
  match nth_error (w_ifs w) (Z.to_nat ifx) with None => false | Some _ => negb (w_mtu w ifx <? zlen f) && ok end.
(** wolfip.c:11567-11631, socket [t] of slot [i] *)
Fixpoint flush_raw (fuel : nat) (w : world) (i : Z) (t : rsock) (o : oracle) (k : nat) : option (rsock * nat * list rev) :=
  match fuel with
  | O => None
  | S fuel =>
      let '(q, p) := fifo_peek (r_tx t) in
      let t := rset_q (r_rx t) q t in
      match p with
      | None => Some (t, k, [])
      | Some pos =>
          do e <- load_entry q pos;
          let f := en_data e in
          let d := rd32 f 30 in
          if d =? 0 then do (q, _) <- fifo_pop q; flush_raw fuel w i (rset_q (r_rx t) q t) o k else
          let ifx := if zlen (w_ifs w) <=? r_if t then raw_route w (r_bound t) d (r_dont t) else r_if t in
          let '(ifx, nh) := if r_dont t then (ifx, d) else
            match route_lookup (w_lb w) (w_confs w) (w_routes w) d with Some x => x | None => (ifx, d) end in
          let t := rset_if (u8 ifx) t in
          match (if is_loopback_if (w_lb w) ifx then Some (match nth_error (w_ifs w) (Z.to_nat ifx) with Some x => i_mac x | None => repeat 0 6 end)
                 else if nh =? 4294967295 then Some (repeat 255 6) else o_mac o k) with
          | None => Some (t, S k, [AskArp ifx nh])
          | Some mac =>
              do f <- (if r_hdr t then Some f else set_ipck f (skipn (Z.to_nat (pos + DESC + zlen f)) (f_data q)));
              do q <- fifo_update q pos (en_flags e) (en_time e) f;
              if w_fsend w ifx f then Some (rset_q (r_rx t) q t, S k, []) else
              let f := match nth_error (w_ifs w) (Z.to_nat ifx) with
                       | Some x => if i_noneth x then f else mac ++ i_mac x ++ be16 2048 ++ skipn 14 f
                       | None => f end in
              do q <- fifo_update q pos (en_flags e) (en_time e) f;
              do (q, _) <- fifo_pop q;
              do (t, k', l) <- flush_raw fuel w i (rset_q (r_rx t) q t) o (S k);
              Some (t, k', (if taken w ifx f (o_drv o k) then TxRaw i ifx f else LostRaw i ifx f) :: l)
          end
      end
  end.
(** wolfip.c:11633-11665 *)
Fixpoint flush_pkt (fuel : nat) (w : world) (i : Z) (t : psock) (o : oracle) (k : nat) : option (psock * nat * list rev) :=
  match fuel with
  | O => None
  | S fuel =>
      let '(q, p) := fifo_peek (p_tx t) in
      let t := pset_q (p_rx t) q t in
      match p with
      | None => Some (t, k, [])
      | Some pos =>
          do e <- load_entry q pos;
          let f := en_data e in
          let ifx := if zlen (w_ifs w) <=? p_if t then 0 else p_if t in
          do (q, _) <- fifo_pop q;
          do (t, k', l) <- flush_pkt fuel w i (pset_q (p_rx t) q t) o (S k);
          Some (t, k', (if w_fsend w ifx f then VetoPkt i ifx f else if taken w ifx f (o_drv o k) then TxPkt i ifx f else LostPkt i ifx f) :: l)
      end
  end.
Fixpoint flush_raws (w : world) (i : Z) (l : list rsock) (o : oracle) (k : nat) : option (list rsock * nat * list rev) :=
  match l with
  | [] => Some ([], k, [])
  | t :: l =>
      do (t, k, e1) <- (if r_used t then flush_raw 2051 w i t o k else Some (t, k, []));
      do (l, k, e2) <- flush_raws w (i + 1) l o k; Some (t :: l, k, e1 ++ e2)
  end.
Fixpoint flush_pkts (w : world) (i : Z) (l : list psock) (o : oracle) (k : nat) : option (list psock * nat * list rev) :=
  match l with
  | [] => Some ([], k, [])
  | t :: l =>
      do (t, k, e1) <- (if p_used t then flush_pkt 2051 w i t o k else Some (t, k, []));
      do (l, k, e2) <- flush_pkts w (i + 1) l o k; Some (t :: l, k, e1 ++ e2)
  end.
(** wolfIP_poll, wolfip.c:11704-11705 *)
Definition rflush (w : world) (st : rst) (o : oracle) : option (rst * list rev) :=
  do (a, k, e1) <- flush_raws w 0 (t_raw st) o 0;
  do (b, _, e2) <- flush_pkts w 0 (t_pkt st) o k;
  Some (mkT a b (t_id st), e1 ++ e2).

(** ** Histories *)
Inductive rop :=
| POpenRaw (pr : Z) (hdrincl : bool) | POpenPkt (pr : Z) | PCloseRaw (i : Z) | PClosePkt (i : Z)
| PBindRaw (i ip : Z) | PBindPkt (i ifindex pr : Z) | PConnect (i ip : Z) | POpt (i : Z) (o : ropt)
| PSendRaw (i : Z) (to : option Z) (b junk : list Z) | PSendPkt (i : Z) (to : option sll) (b : list Z)
| PRecvRaw (i blen : Z) | PRecvPkt (i blen : Z)
| PInIp (ifx : Z) (f : list Z)                  (* ip_recv reaches the raw socket tap (10196) *)
| PInFrame (ifx : Z) (f : list Z) (wild : bool) (* wolfIP_recv_on reaches the packet tap (10505, 10523) *)
| PFlush (o : oracle).
Definition rstep (w : world) (st : rst) (o : rop) : option (rst * rres * list rev) :=
  match o with
  | POpenRaw pr h => let '(st, r) := open_raw st pr h in Some (st, r, [])
  | POpenPkt pr => let '(st, r) := open_pkt st pr in Some (st, r, [])
  | PCloseRaw i => let '(st, r) := close_raw st i in Some (st, r, [])
  | PClosePkt i => let '(st, r) := close_pkt st i in Some (st, r, [])
  | PBindRaw i ip => let '(st, r) := bind_raw w st i ip in Some (st, r, [])
  | PBindPkt i x pr => let '(st, r) := bind_pkt w st i x pr in Some (st, r, [])
  | PConnect i ip => let '(st, r) := connect_raw w st i ip in Some (st, r, [])
  | POpt i o => let '(st, r) := opt_raw st i o in Some (st, r, [])
  | PSendRaw i to b junk => do (st, r) <- sendto_raw w st i to b junk; Some (st, r, [])
  | PSendPkt i to b => do (st, r) <- sendto_pkt w st i to b; Some (st, r, [])
  | PRecvRaw i n => do (st, r) <- recvfrom_raw st i n; Some (st, r, [])
  | PRecvPkt i n => do (st, r) <- recvfrom_pkt st i n; Some (st, r, [])
  | PInIp i f => do st <- raw_try_recv st i f; Some (st, XVoid, [])
  | PInFrame i f wild => do st <- pkt_try_recv st i f wild; Some (st, XVoid, [])
  | PFlush o => do (st, e) <- rflush w st o; Some (st, XVoid, e)
  end.
