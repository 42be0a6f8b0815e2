(** The TCP connection state machine over the whole TCP socket table: segment input,
    socket calls, timers, ICMP errors, callback dispatch.
    Source: /repo/src/wolfip.c (lines cited at each definition).
    Simplifications: a segment is given after header validation (frame length, IP length,
    checksum, data offset, option parsing: C06, C14) as its fields; the transmit FIFO, ARP,
    filters and the congestion state are not represented - whether a control segment could
    be queued, whether a filter vetoed, whether payload is in flight, and whether the data
    retransmission limit was reached (C17) are inputs of the event; timer-heap insertion
    succeeds (C04); a freed socket slot ([k_live] = false, proto = 0) is all zero; events
    other than CB_EVENT_CLOSED, and RTT sampling, are not represented.  The receive buffer
    and reassembly are the ones of TcpRecv.v. *)
From Verif Require Import Base ListUtil Seq Queue TcpRecv.

(** enum tcp_state, wolfip.c:1174-1186 *)
Inductive tst := CLOSED | LISTEN | SYN_SENT | SYN_RCVD | ESTABLISHED | FIN_WAIT_1 | FIN_WAIT_2
  | CLOSING | TIME_WAIT | CLOSE_WAIT | LAST_ACK.
Definition tst_eqb (a b : tst) : bool :=
  match a, b with
  | CLOSED, CLOSED | LISTEN, LISTEN | SYN_SENT, SYN_SENT | SYN_RCVD, SYN_RCVD | ESTABLISHED, ESTABLISHED
  | FIN_WAIT_1, FIN_WAIT_1 | FIN_WAIT_2, FIN_WAIT_2 | CLOSING, CLOSING | TIME_WAIT, TIME_WAIT
  | CLOSE_WAIT, CLOSE_WAIT | LAST_ACK, LAST_ACK => true
  | _, _ => false
  end.
(** state > TCP_LISTEN *)
Definition conn_state (s : tst) : bool := match s with CLOSED | LISTEN => false | _ => true end.

(** struct tsocket / struct tcpsocket (wolfip.c:1188-1330), the fields that matter here.
    [k_rx]'s ACK number is sock.tcp.ack (RCV.NXT); [k_seq] is sock.tcp.seq (SND.NXT, without
    SYN/FIN), [k_last] the sequence number of our FIN; [k_evc] = CB_EVENT_CLOSED pending;
    [k_cnp] = close_notify_pending; [k_tmr] = tmr_rto armed. *)
Record sk := mkSk {
  k_live : bool; k_st : tst;
  k_lport : Z; k_rport : Z; k_lip : Z; k_rip : Z; k_bound : Z;
  k_rx : rxs; k_seq : Z; k_una : Z; k_last : Z;
  k_lsn : bool; k_cb : bool; k_evc : bool; k_cnp : bool;
  k_tmr : bool; k_ctrl : bool; k_retr : Z; k_fw2 : bool; k_pre : bool;
  k_rwnd : Z; k_wson : bool; k_wsc : Z;
  k_ts : bool; k_tsv : bool; k_lts : Z }.

(** Functional field updates. *)
Definition set_st (t : sk) x := mkSk (k_live t) x (k_lport t) (k_rport t) (k_lip t) (k_rip t) (k_bound t) (k_rx t) (k_seq t) (k_una t) (k_last t) (k_lsn t) (k_cb t) (k_evc t) (k_cnp t) (k_tmr t) (k_ctrl t) (k_retr t) (k_fw2 t) (k_pre t) (k_rwnd t) (k_wson t) (k_wsc t) (k_ts t) (k_tsv t) (k_lts t).
Definition set_addr (t : sk) lp rp li ri := mkSk (k_live t) (k_st t) lp rp li ri (k_bound t) (k_rx t) (k_seq t) (k_una t) (k_last t) (k_lsn t) (k_cb t) (k_evc t) (k_cnp t) (k_tmr t) (k_ctrl t) (k_retr t) (k_fw2 t) (k_pre t) (k_rwnd t) (k_wson t) (k_wsc t) (k_ts t) (k_tsv t) (k_lts t).
Definition set_bound (t : sk) x := mkSk (k_live t) (k_st t) (k_lport t) (k_rport t) (k_lip t) (k_rip t) x (k_rx t) (k_seq t) (k_una t) (k_last t) (k_lsn t) (k_cb t) (k_evc t) (k_cnp t) (k_tmr t) (k_ctrl t) (k_retr t) (k_fw2 t) (k_pre t) (k_rwnd t) (k_wson t) (k_wsc t) (k_ts t) (k_tsv t) (k_lts t).
Definition set_rx (t : sk) x := mkSk (k_live t) (k_st t) (k_lport t) (k_rport t) (k_lip t) (k_rip t) (k_bound t) x (k_seq t) (k_una t) (k_last t) (k_lsn t) (k_cb t) (k_evc t) (k_cnp t) (k_tmr t) (k_ctrl t) (k_retr t) (k_fw2 t) (k_pre t) (k_rwnd t) (k_wson t) (k_wsc t) (k_ts t) (k_tsv t) (k_lts t).
Definition set_snd (t : sk) s u l := mkSk (k_live t) (k_st t) (k_lport t) (k_rport t) (k_lip t) (k_rip t) (k_bound t) (k_rx t) s u l (k_lsn t) (k_cb t) (k_evc t) (k_cnp t) (k_tmr t) (k_ctrl t) (k_retr t) (k_fw2 t) (k_pre t) (k_rwnd t) (k_wson t) (k_wsc t) (k_ts t) (k_tsv t) (k_lts t).
Definition set_app (t : sk) ls c e n := mkSk (k_live t) (k_st t) (k_lport t) (k_rport t) (k_lip t) (k_rip t) (k_bound t) (k_rx t) (k_seq t) (k_una t) (k_last t) ls c e n (k_tmr t) (k_ctrl t) (k_retr t) (k_fw2 t) (k_pre t) (k_rwnd t) (k_wson t) (k_wsc t) (k_ts t) (k_tsv t) (k_lts t).
Definition set_tm (t : sk) m c r f p := mkSk (k_live t) (k_st t) (k_lport t) (k_rport t) (k_lip t) (k_rip t) (k_bound t) (k_rx t) (k_seq t) (k_una t) (k_last t) (k_lsn t) (k_cb t) (k_evc t) (k_cnp t) m c r f p (k_rwnd t) (k_wson t) (k_wsc t) (k_ts t) (k_tsv t) (k_lts t).
Definition set_win (t : sk) w o c := mkSk (k_live t) (k_st t) (k_lport t) (k_rport t) (k_lip t) (k_rip t) (k_bound t) (k_rx t) (k_seq t) (k_una t) (k_last t) (k_lsn t) (k_cb t) (k_evc t) (k_cnp t) (k_tmr t) (k_ctrl t) (k_retr t) (k_fw2 t) (k_pre t) w o c (k_ts t) (k_tsv t) (k_lts t).
Definition set_ts (t : sk) o v l := mkSk (k_live t) (k_st t) (k_lport t) (k_rport t) (k_lip t) (k_rip t) (k_bound t) (k_rx t) (k_seq t) (k_una t) (k_last t) (k_lsn t) (k_cb t) (k_evc t) (k_cnp t) (k_tmr t) (k_ctrl t) (k_retr t) (k_fw2 t) (k_pre t) (k_rwnd t) (k_wson t) (k_wsc t) o v l.

Definition k_ack (t : sk) : Z := rx_ack (k_rx t).
Definition set_ack (t : sk) (a : Z) : sk := set_rx t (mkRx (rx_q (k_rx t)) a (rx_ooo (k_rx t)) (rx_sack (k_rx t))).

(** memset(ts, 0, sizeof(struct tsocket)). *)
Definition rx_zero : rxs := mkRx (queue_init [] 0 0) 0 (repeat slot0 4) [].
Definition sk0 : sk := mkSk false CLOSED 0 0 0 0 0 rx_zero 0 0 0 false false false false false false 0 false false 0 false 0 false false 0.
(** close_socket, wolfip.c:6138-6180, TCP: the slot is released, or kept for one final
    CB_EVENT_CLOSED if a callback is armed. *)
Definition close_socket (t : sk) : sk :=
  if k_cb t then mkSk true CLOSED 0 0 0 0 0 rx_zero 0 0 0 false true true true false false 0 false false 0 false 0 false false 0
  else sk0.
(** tcp_new_socket, wolfip.c:3066-3122: initial contents of an allocated slot; [rxmem] is
    the socket's receive memory (RXBUF_SIZE bytes). *)
Definition rx_new (rxmem : list Z) : rxs := mkRx (queue_init rxmem (zlen rxmem) 0) 0 (repeat slot0 4) [].
Definition new_sk (rxmem : list Z) : sk :=
  mkSk true CLOSED 0 0 0 0 0 (rx_new rxmem) 0 0 0 false false false false false false 0 false false 65535 false 0 false false 0.
(** tcp_listener_revert_to_listen, wolfip.c:4003-4060; [isn] = wolfIP_getrandom(). *)
Definition revert_to_listen (rxmem : list Z) (isn : Z) (t : sk) : sk :=
  mkSk (k_live t) LISTEN (k_lport t) 0 (if k_bound t =? 0 then k_lip t else k_bound t) 0 (k_bound t)
       (rx_new rxmem) isn 0 0 true (k_cb t) false (k_cnp t) false false 0 false false 65535 false 0 false false 0.
(** tcp_ctrl_rto_stop 3907-3917, tcp_ctrl_rto_start 3931-3949, tcp_fin_wait_2_timeout_start
    3951-3967 / _stop 3969-3978, tcp_preaccept_timeout_start 3980-3996 / _stop 3998-... *)
Definition ctrl_stop (t : sk) := set_tm t false false 0 (k_fw2 t) (k_pre t).
Definition ctrl_start (t : sk) := set_tm t true true (k_retr t) false (k_pre t).
Definition fw2_start (t : sk) := set_tm t true (k_ctrl t) (k_retr t) true (k_pre t).
Definition fw2_stop (t : sk) := set_tm t false (k_ctrl t) (k_retr t) false (k_pre t).
Definition pre_start (t : sk) := set_tm t true (k_ctrl t) (k_retr t) (k_fw2 t) true.
Definition pre_stop (t : sk) := set_tm t false (k_ctrl t) (k_retr t) (k_fw2 t) false.

(** A received segment.  [g_xflags]: a flag other than FIN, SYN, RST, ACK is set;
    [g_ts] = TSval of the timestamp option, [g_ws] = window-scale shift (already clamped). *)
Record tseg := mkTseg {
  g_src : Z; g_dst : Z; g_sport : Z; g_dport : Z; g_seq : Z; g_ackn : Z;
  g_fin : bool; g_syn : bool; g_rst : bool; g_ack : bool; g_xflags : bool;
  g_win : Z; g_data : list Z; g_ts : option Z; g_ws : option Z }.
Definition g_len (g : tseg) : Z := zlen (g_data g) + (if g_syn g then 1 else 0) + (if g_fin g then 1 else 0).

(** What the host does in answer to a segment: an ACK or SYN-ACK from socket slot [i], or a
    reset answering the segment itself. *)
Inductive out := OAck (i : nat) | OSynAck (i : nat) | ORst (seq : Z) (ack : option Z).

(** tcp_send_reset_reply, wolfip.c:3653-3775: sequence and acknowledgement of the reset. *)
Definition reset_reply (g : tseg) : list out :=
  if g_rst g then []
  else if g_ack g then [ORst (g_ackn g) None]
  else let a := tcp_seq_inc (g_seq g) (zlen (g_data g)) in
       let a := if g_syn g then tcp_seq_inc a 1 else a in
       let a := if g_fin g then tcp_seq_inc a 1 else a in
       [ORst 0 (Some a)].

(** Inputs of tcp_input besides the segment: the local addresses of the host
    (wolfIP_if_for_local_ip), whether an address is broadcast or multicast,
    wolfIP_getrandom(), the memory of a receive buffer, and whether payload is still in
    flight after the segment's acknowledgement. *)
Record tenv := mkEnv { e_local : Z -> bool; e_bmcast : Z -> bool; e_isn : Z; e_rxmem : list Z; e_infl : bool }.

(** Byte swap of a 32-bit value (ee32 on a little-endian host, wolfip.c:85-100). *)
Definition bswap32 (x : Z) : Z :=
  (x mod 256) * 16777216 + (x / 256 mod 256) * 65536 + (x / 65536 mod 256) * 256 + x / 16777216 mod 256.
(** tcp_process_ts, wolfip.c:4823-4862, the TS.Recent part (last_ts holds network order). *)
Definition process_ts (t : sk) (g : tseg) : sk :=
  match g_ts g with
  | None => t
  | Some v =>
    if negb (k_tsv t) || (negb (tcp_seq_lt (bswap32 v) (k_lts t)) && tcp_seq_leq (g_seq g) (k_ack t))
    then set_ts t (k_ts t) true (bswap32 v) else t
  end.
Inductive paws := PawsOk | PawsDrop | PawsAckDrop.
(** tcp_paws_check, wolfip.c:4870-4888 (never called with RST). *)
Definition paws_check (t : sk) (g : tseg) : paws :=
  if negb (k_ts t) then PawsOk
  else match g_ts g with
       | None => PawsDrop
       | Some v => if k_tsv t && tcp_seq_lt v (bswap32 (k_lts t)) then PawsAckDrop else PawsOk
       end.
(** tcp_segment_acceptable, wolfip.c:3136-3161. *)
Definition acceptable (t : sk) (g : tseg) : bool :=
  tcp_segment_acceptable (k_ack t) (queue_space (rx_q (k_rx t))) (g_seq g) (g_len g).

(** tcp_ack, wolfip.c:5107-5345: the state changes and SND.UNA; retransmission and
    congestion control are TcpSend.v.  When SND.UNA advances the retransmission timer is
    cancelled and re-armed only if payload is in flight, unless the timer serves FIN_WAIT_2
    or the pre-accept timeout (5203-5219). *)
Definition ack_state (t : sk) (g : tseg) : sk :=
  let fin_acked := tcp_seq_inc (k_last t) 1 in
  match k_st t with
  | FIN_WAIT_1 => if tcp_seq_leq fin_acked (g_ackn g) then fw2_start (ctrl_stop (set_st t FIN_WAIT_2)) else t
  | CLOSING => if tcp_seq_leq fin_acked (g_ackn g) then ctrl_stop (set_st t TIME_WAIT) else t
  | _ => t
  end.
Definition ack_una (infl : bool) (t : sk) (g : tseg) : sk :=
  if negb (k_una t =? g_ackn g) && tcp_seq_leq (k_una t) (g_ackn g) && tcp_seq_leq (g_ackn g) (k_seq t) then
    let t1 := set_snd t (k_seq t) (g_ackn g) (k_last t) in
    if negb (k_fw2 t) && negb (k_pre t) then set_tm t1 infl (k_ctrl t) (k_retr t) (k_fw2 t) (k_pre t) else t1
  else t.
Definition tcp_ack (infl : bool) (t : sk) (g : tseg) : sk :=
  if tst_eqb (k_st t) LAST_ACK && tcp_seq_leq (tcp_seq_inc (k_last t) 1) (g_ackn g) then
    let t1 := set_st (ctrl_stop t) CLOSED in
    if k_cb t1 then set_app t1 (k_lsn t1) true true (k_cnp t1) else close_socket t1
  else ack_una infl (ack_state t g) g.

(** tcp_listen_ack_matches_child_socket, wolfip.c:5347-5370. *)
Definition child_match (others : list sk) (g : tseg) : bool :=
  existsb (fun c => k_live c && conn_state (k_st c) && (k_lport c =? g_dport g) && (k_rport c =? g_sport g)
                    && (k_lip c =? g_dst g) && (k_rip c =? g_src g)) others.
(** wolfip.c:5602-5618: an active connection with the SYN's 4-tuple. *)
Definition dup_conn (others : list sk) (lport : Z) (g : tseg) : bool :=
  existsb (fun c => conn_state (k_st c) && (k_lport c =? lport) && (k_rport c =? g_sport g)
                    && (k_rip c =? g_src g) && (k_lip c =? g_dst g)) others.

(** Socket selection, wolfip.c:5411-5436. *)
Definition addressed (t : sk) (g : tseg) : bool :=
  k_live t && negb (tst_eqb (k_st t) CLOSED && k_evc t) && (k_lport t =? g_dport g) &&
  (negb (conn_state (k_st t)) || ((k_rport t =? g_sport g) && (k_rip t =? g_src g) && ((k_lip t =? 0) || (k_lip t =? g_dst g)))).

(** wolfip.c:5443-5471: options carried by a SYN. *)
Definition syn_options (t : sk) (g : tseg) : sk :=
  if g_syn g then
    match k_st t with
    | LISTEN => set_ts (set_win t (k_rwnd t) (match g_ws g with Some _ => true | None => false end) (match g_ws g with Some w => w | None => 0 end))
                       (match g_ts g with Some _ => true | None => false end) (k_tsv t) (k_lts t)
    | SYN_SENT => set_ts (set_win t (k_rwnd t) (match g_ws g with Some _ => true | None => false end) (match g_ws g with Some w => w | None => 0 end))
                       (match g_ts g with Some _ => true | None => false end) (k_tsv t) (k_lts t)
    | _ => t
    end
  else t.
(** wolfip.c:5473-5486: the peer's window. *)
Definition peer_window (t : sk) (g : tseg) : sk :=
  if g_rst g then t
  else set_win t (Z.shiftl (g_win g) (if k_wson t && negb (g_syn g) then k_wsc t else 0)) (k_wson t) (k_wsc t).

(** Result of processing one socket slot: new socket, answers, whether the loop stops. *)
Definition res := (sk * list out * bool)%type.

(** RST, wolfip.c:5488-5567. *)
Definition rst_input (i : nat) (t : sk) (g : tseg) : res :=
  match k_st t with
  | LISTEN => (t, [], false)
  | SYN_RCVD =>
    if negb (g_seq g =? k_ack t) then (t, [], false)
    else if k_lsn t then (set_ack (set_addr (set_st t LISTEN) (k_lport t) 0 (k_lip t) 0) 0, [], false)
    else if k_cb t then (set_app (set_st t CLOSED) (k_lsn t) true true (k_cnp t), [], false)
    else (close_socket t, [], false)
  | SYN_SENT =>
    if negb (g_ack g) then (t, [], false)
    else if negb (tcp_seq_lt (k_una t) (g_ackn g)) || tcp_seq_lt (tcp_seq_inc (k_seq t) 1) (g_ackn g) then (t, [], false)
    else (close_socket t, [], false)
  | _ =>
    if negb (g_seq g =? k_ack t) then
      let wnd := queue_space (rx_q (k_rx t)) in
      (t, if negb (wnd =? 0) && tcp_seq_leq (k_ack t) (g_seq g) && tcp_seq_lt (g_seq g) (tcp_seq_inc (k_ack t) wnd) then [OAck i] else [], false)
    else (close_socket t, [], false)
  end.

(** wolfip.c:5589-5641: SYN in LISTEN.  [None] = the segment is ignored. *)
Definition listen_syn (env : tenv) (others : list sk) (t : sk) (g : tseg) : option sk :=
  if g_dst g =? 0 then None
  else if negb (k_bound t =? 0) && negb (k_bound t =? g_dst g) then None
  else if dup_conn others (k_lport t) g then None
  else if negb (e_local env (g_dst g)) then None
  else
    let t1 := set_addr (set_st t SYN_RCVD) (k_lport t) (g_sport g) (g_dst g) (g_src g) in
    let t2 := set_snd (set_ack t1 (tcp_seq_inc (g_seq g) 1)) (e_isn env) (e_isn env) (k_last t) in
    let t3 := process_ts t2 g in
    Some (ctrl_start (set_tm t3 (k_tmr t3) (k_ctrl t3) 0 (k_fw2 t3) (k_pre t3))).

(** wolfip.c:5642-5662: SYN-ACK in SYN_SENT (the flags are exactly SYN and ACK). *)
Definition synsent_synack (t : sk) (g : tseg) : sk :=
  let t1 := ctrl_stop (set_st t ESTABLISHED) in
  let t2 := set_snd (set_ack t1 (tcp_seq_inc (g_seq g) 1)) (g_ackn g) (g_ackn g) (k_last t) in
  process_ts t2 g.

(** wolfip.c:5664-5729: SYN_RCVD. *)
Definition synrcvd_input (i : nat) (t : sk) (g : tseg) : option res :=
  if g_syn g && negb (g_ack g) && (g_seq g =? u32 (k_ack t - 1)) then Some (t, [OSynAck i], false)
  else if negb (g_ack g) then Some (t, [], false)
  else if negb (acceptable t g) then Some (t, [OAck i], false)
  else if negb (g_ackn g =? tcp_seq_inc (k_una t) 1) then Some (t, reset_reply g, false)
  else
    let t1 := ctrl_stop (set_st t ESTABLISHED) in
    let t2 := if k_lsn t1 then pre_start t1 else t1 in
    let t3 := set_snd t2 (g_ackn g) (g_ackn g) (k_last t) in
    do (rx, acks) <- (if 0 <? zlen (g_data g) then tcp_recv (k_rx t3) (g_seq g) (g_data g) else Some (k_rx t3, []));
    let t4 := set_rx t3 rx in
    let o := map (fun _ => OAck i) acks in
    if g_fin g then
      let e := tcp_seq_inc (g_seq g) (zlen (g_data g)) in
      if k_ack t4 =? e then Some (set_st (set_ack t4 (tcp_seq_inc e 1)) CLOSE_WAIT, o ++ [OAck i], false)
      else Some (t4, o ++ [OAck i], false)
    else Some (t4, o, false).

(** wolfip.c:5798-5835: FIN in the data-transfer states. *)
Definition fin_input (i : nat) (t : sk) (g : tseg) : res :=
  if g_fin g then
    let e := tcp_seq_inc (g_seq g) (zlen (g_data g)) in
    let n := zlen (g_data g) in
    if ((n =? 0) && negb (k_ack t =? g_seq g)) || ((0 <? n) && negb (k_ack t =? e)) then (t, [OAck i], false)
    else
      let t1 := match k_st t with
                | ESTABLISHED => set_st t CLOSE_WAIT
                | FIN_WAIT_1 => set_st t CLOSING
                | FIN_WAIT_2 => set_st (fw2_stop t) TIME_WAIT
                | _ => t
                end in
      let t2 := set_ack t1 (if 0 <? n then tcp_seq_inc e 1 else tcp_seq_inc (g_seq g) 1) in
      (set_app t2 (k_lsn t2) (k_cb t2) true (k_cnp t2), [OAck i], false)
  else (t, [], false).

(** wolfip.c:4310-4315: states in which tcp_recv accepts data. *)
Definition rx_state (s : tst) : bool := match s with ESTABLISHED | CLOSE_WAIT | FIN_WAIT_1 | FIN_WAIT_2 => true | _ => false end.
(** wolfip.c:5730-5840: the synchronized states. *)
Definition sync_input (env : tenv) (i : nat) (t : sk) (g : tseg) : option res :=
  match k_st t with
  | TIME_WAIT => match paws_check t g with PawsDrop => Some (t, [], false) | _ => Some (t, [OAck i], false) end
  | LAST_ACK =>
    match paws_check t g with
    | PawsAckDrop => Some (t, [OAck i], false)
    | PawsDrop => Some (t, [], false)
    | PawsOk =>
      if negb (acceptable t g) then Some (t, [OAck i], false)
      else if g_syn g then Some (t, [OAck i], false)
      else if g_ack g then
        let t1 := tcp_ack (e_infl env) t g in
        Some (if tst_eqb (k_st t1) CLOSED then t1 else process_ts t1 g, [], false)
      else Some (t, [], false)
    end
  | ESTABLISHED | CLOSE_WAIT | FIN_WAIT_1 | FIN_WAIT_2 | CLOSING =>
    match paws_check t g with
    | PawsAckDrop => Some (t, [OAck i], false)
    | PawsDrop => Some (t, [], false)
    | PawsOk =>
      if negb (acceptable t g) then Some (t, [OAck i], false)
      else if g_syn g then Some (t, [OAck i], false)
      else if negb (g_ack g) then Some (t, [], false)
      else
        let t1 := process_ts (tcp_ack (e_infl env) t g) g in
        if (0 <? zlen (g_data g)) && tst_eqb (k_st t1) CLOSING then Some (t1, [], true)
        else
          do (rx, acks) <- (if (0 <? zlen (g_data g)) && rx_state (k_st t1) then tcp_recv (k_rx t1) (g_seq g) (g_data g) else Some (k_rx t1, []));
          let '(t2, o, stop) := fin_input i (set_rx t1 rx) g in
          Some (t2, map (fun _ => OAck i) acks ++ o, stop)
    end
  | _ => Some (t, [], false)
  end.

(** One turn of the loop of tcp_input, wolfip.c:5407-5843, for a socket that the segment
    addresses. *)
Definition sock_input (env : tenv) (others : list sk) (i : nat) (t : sk) (g : tseg) : option res :=
  if tst_eqb (k_st t) LISTEN && g_rst g then Some (t, [], false)
  else if tst_eqb (k_st t) LISTEN && g_ack g then
    Some (t, if child_match others g then [] else reset_reply g, false)
  else
    let t := peer_window (syn_options t g) g in
    if g_rst g then Some (rst_input i t g)
    else if tst_eqb (k_st t) SYN_SENT && g_ack g &&
            (negb (tcp_seq_lt (k_una t) (g_ackn g)) || tcp_seq_lt (tcp_seq_inc (k_seq t) 1) (g_ackn g))
    then Some (t, reset_reply g, false)
    else if g_syn g && tst_eqb (k_st t) LISTEN then
      match listen_syn env others t g with
      | None => Some (t, [], false)
      | Some t' => Some (t', [OSynAck i], true)
      end
    else
      let '(t, o1) := if g_syn g && tst_eqb (k_st t) SYN_SENT && g_ack g && negb (g_fin g) && negb (g_xflags g)
                      then (synsent_synack t g, [OAck i]) else (t, []) in
      do (r, stop) <- (match k_st t with SYN_RCVD => synrcvd_input i t g | _ => sync_input env i t g end);
      Some (fst r, o1 ++ snd r, stop).

(** tcp_input, wolfip.c:5371-5860.  Third component: the segment matched a socket. *)
Fixpoint input_loop (env : tenv) (g : tseg) (before after : list sk) : option (list sk * list out * bool) :=
  match after with
  | [] => Some (before, [], false)
  | t :: after' =>
    if addressed t g then
      do (r, stop) <- sock_input env (before ++ after') (length before) t g;
      if stop then Some (before ++ fst r :: after', snd r, true)
      else do (r', _) <- input_loop env g (before ++ [fst r]) after';
           Some (fst r', snd r ++ snd r', true)
    else input_loop env g (before ++ [t]) after'
  end.
Definition tcp_input (env : tenv) (tbl : list sk) (g : tseg) : option (list sk * list out) :=
  do (r, matched) <- input_loop env g [] tbl;
  Some (fst r, snd r ++
    if matched then [] else
    if negb (g_dst g =? 0) && negb (e_bmcast env (g_dst g)) && e_local env (g_dst g) then reset_reply g else []).

(** ** Timers: tcp_rto_cb, wolfip.c:5866-6128.  The timer has just been removed from the
    heap.  [pend]: payload in flight or queued; [giveup]: the data retransmission limit is
    reached; [rearm]: the data path re-arms the timer; [queued]: the control segment could
    be queued. *)
Definition needs_ctrl (t : sk) (pend : bool) : bool :=
  match k_st t with SYN_SENT | SYN_RCVD | LAST_ACK => true | FIN_WAIT_1 => negb pend | _ => false end.
Definition CTRL_MAXRTX : Z := 8.
Definition rto_cb (env : tenv) (pend giveup rearm queued : bool) (t0 : sk) : sk :=
  let t := set_tm t0 false (k_ctrl t0) (k_retr t0) (k_fw2 t0) (k_pre t0) in
  if k_fw2 t then
    if tst_eqb (k_st t) FIN_WAIT_2 then close_socket (fw2_stop t) else fw2_stop t
  else if k_pre t then
    if tst_eqb (k_st t) ESTABLISHED && k_lsn t then revert_to_listen (e_rxmem env) (e_isn env) t else pre_stop t
  else if needs_ctrl t pend || k_ctrl t then
    if negb (needs_ctrl t pend) then ctrl_stop t
    else if CTRL_MAXRTX <=? k_retr t then
      if k_lsn t && tst_eqb (k_st t) SYN_RCVD then revert_to_listen (e_rxmem env) (e_isn env) (ctrl_stop t)
      else close_socket (set_st (ctrl_stop t) CLOSED)
    else
      let t1 := match k_st t with
                | FIN_WAIT_1 | LAST_ACK => if queued then set_snd t (k_seq t) (k_una t) (k_seq t) else t
                | _ => t
                end in
      ctrl_start (set_tm t1 (k_tmr t1) (k_ctrl t1) (if queued then k_retr t1 + 1 else k_retr t1) (k_fw2 t1) (k_pre t1))
  else match k_st t with
       | ESTABLISHED | FIN_WAIT_1 => if giveup then close_socket (set_st t CLOSED) else set_tm t rearm (k_ctrl t) (k_retr t) (k_fw2 t) (k_pre t)
       | _ => t
       end.

(** ** Socket calls *)
(** wolfIP_sock_close, wolfip.c:7662-7727.  Second component: the returned value. *)
Definition sock_close (queued : bool) (t : sk) : sk * Z :=
  let disarm t := set_app t (k_lsn t) false (k_evc t) (k_cnp t) in
  let start_close st :=
    if queued then
      let t1 := set_st (set_snd t (k_seq t) (k_una t) (k_seq t)) st in
      (disarm (ctrl_start (set_tm t1 (k_tmr t1) (k_ctrl t1) 0 (k_fw2 t1) (k_pre t1))), -11)
    else (t, -11) in
  match k_st t with
  | ESTABLISHED => start_close FIN_WAIT_1
  | CLOSE_WAIT => start_close LAST_ACK
  | CLOSING | FIN_WAIT_1 | FIN_WAIT_2 => (t, -11)
  | _ => (close_socket (disarm t), 0)
  end.
(** wolfIP_sock_connect, wolfip.c:6417-6494, TCP.  [bad]: family, length, broadcast or
    multicast destination, or unusable bound address; [lip]: the local address chosen
    (6449-6464); [rport]: a random 16-bit number. *)
Definition sock_connect (bad veto queued : bool) (isn lip rip rport rnd : Z) (t : sk) : sk * Z :=
  match k_st t with
  | ESTABLISHED => (t, 0)
  | SYN_SENT => (t, -11)
  | CLOSED =>
    if bad then (t, -22)
    else
      let lp := if k_lport t =? 0 then u16 rnd else k_lport t in
      let lp := if lp <? 1024 then lp + 1024 else lp in
      let t1 := set_snd (set_addr t lp rport lip rip) isn isn (k_last t) in
      if veto then (t1, -1)
      else if negb queued then (set_tm t1 (k_tmr t1) (k_ctrl t1) 0 (k_fw2 t1) (k_pre t1), -11)
      else (ctrl_start (set_tm (set_st t1 SYN_SENT) (k_tmr t1) (k_ctrl t1) 0 (k_fw2 t1) (k_pre t1)), -11)
  | _ => (t, -22)
  end.
(** wolfIP_sock_listen, wolfip.c:8142-8170. *)
Definition sock_listen (veto : bool) (t : sk) : sk * Z :=
  match k_st t with
  | CLOSED => let t1 := set_app t true (k_cb t) (k_evc t) (k_cnp t) in if veto then (t1, -1) else (set_st t1 LISTEN, 0)
  | _ => (t, -1)
  end.
(** wolfIP_sock_accept, wolfip.c:6497-6612, the clone made for a half-open connection. *)
Definition clone (rxmem : list Z) (ts : sk) : sk :=
  ctrl_start (mkSk true SYN_RCVD (k_lport ts) (k_rport ts) (k_lip ts) (k_rip ts) (if k_bound ts =? 0 then k_lip ts else k_bound ts)
    (mkRx (rx_q (rx_new rxmem)) (k_ack ts) (repeat slot0 4) []) (k_seq ts) (k_seq ts) 0
    false (k_cb ts) false false false false 0 false false (k_rwnd ts) (k_wson ts) (k_wsc ts) (k_ts ts) (k_tsv ts) (k_lts ts)).
(** The listener once its half-open connection has been handed over (6570-6594). *)
Definition after_accept (isn : Z) (ts : sk) : sk :=
  let t1 := ctrl_stop (set_st ts LISTEN) in
  set_addr (set_snd t1 isn (k_una ts) (k_last ts)) (k_lport ts) (k_rport ts) (if k_bound ts =? 0 then k_lip ts else k_bound ts) (k_rip ts).
Fixpoint free_slot (tbl : list sk) (i : nat) : option nat :=
  match tbl with [] => None | t :: r => if k_live t then free_slot r (S i) else Some i end.
Definition set_slot (tbl : list sk) (i : nat) (t : sk) : list sk := set_nth i t tbl.

(** Events of one TCP socket table. *)
Inductive ev :=
| ESocket                                                  (* wolfIP_sock_socket, wolfip.c:6247-6256 *)
| EBind (i : nat) (bind_ip local_ip port : Z) (refused : bool)   (* wolfIP_sock_bind, wolfip.c:7994-8031 *)
| ECallback (i : nat) (armed : bool)                       (* wolfIP_register_callback, wolfip.c:2463-2476 *)
| EListen (i : nat) (veto : bool)
| EConnect (i : nat) (bad veto queued : bool) (lip rip rport rnd : Z)
| EAccept (i : nat) (queued veto : bool)
| EClose (i : nat) (queued : bool)
| ESend (i : nat) (n : Z)                                  (* wolfip.c:6645-6716: [n] bytes queued *)
| ERecv (i : nat) (shift len : Z)                          (* wolfip.c:7043-7080 *)
| ESeg (g : tseg)
| ETimer (i : nat) (pend giveup rearm queued : bool)
| EIcmp (i : nat) (emb_seq : Z)                            (* wolfip.c:2927-2948 *)
| EDispatch (i : nat).                                     (* wolfip.c:11216-11263 *)

(** One event.  [None] = undefined behaviour; events on a slot outside the table or on a
    free slot do nothing (the application uses descriptors it holds). *)
Definition on_slot (tbl : list sk) (i : nat) (f : sk -> option sk) : option (list sk * list out) :=
  match nth_error tbl i with
  | Some t => if k_live t then do t' <- f t; Some (set_slot tbl i t', []) else Some (tbl, [])
  | None => Some (tbl, [])
  end.
Definition step (env : tenv) (tbl : list sk) (e : ev) : option (list sk * list out) :=
  match e with
  | ESocket => match free_slot tbl 0 with Some i => Some (set_slot tbl i (new_sk (e_rxmem env)), []) | None => Some (tbl, []) end
  | EBind i bip lip port refused =>
      on_slot tbl i (fun t => Some (if tst_eqb (k_st t) CLOSED && negb refused then set_bound (set_addr t port (k_rport t) lip (k_rip t)) bip else t))
  | ECallback i a => on_slot tbl i (fun t => Some (set_app t (k_lsn t) a (k_evc t) (k_cnp t)))
  | EListen i veto => on_slot tbl i (fun t => Some (fst (sock_listen veto t)))
  | EConnect i bad veto queued lip rip rport rnd =>   (* a slot awaiting its close event has no transmit buffer *)
      on_slot tbl i (fun t => Some (fst (sock_connect bad veto (queued && negb (k_cnp t)) (e_isn env) lip rip rport rnd t)))
  | EClose i queued => on_slot tbl i (fun t => Some (fst (sock_close queued t)))
  | ESend i n => on_slot tbl i (fun t => Some (match k_st t with
                                               | ESTABLISHED | CLOSE_WAIT => set_snd t (tcp_seq_inc (k_seq t) n) (k_una t) (k_last t)
                                               | _ => t end))
  | ERecv i shift len => on_slot tbl i (fun t =>
      if rx_state (k_st t) || (tst_eqb (k_st t) CLOSED && negb (queue_len (rx_q (k_rx t)) =? 0))
      then do (rx, _) <- sock_recv (k_rx t) shift len; Some (set_rx t rx) else Some t)
  | ESeg g => tcp_input env tbl g
  | ETimer i pend giveup rearm queued => on_slot tbl i (fun t => Some (if k_tmr t then rto_cb env pend giveup rearm queued t else t))
  | EIcmp i emb => on_slot tbl i (fun t => Some (match k_st t with
                                               | SYN_SENT | SYN_RCVD => if emb =? k_una t then close_socket t else t
                                               | _ => t end))
  | EDispatch i => on_slot tbl i (fun t => Some (if k_cnp t then sk0
                                                 else if k_cb t && tst_eqb (k_st t) CLOSED && k_evc t then sk0
                                                 else if k_cb t && conn_state (k_st t) then set_app t (k_lsn t) true false (k_cnp t)
                                                 else t))
  | EAccept i queued veto =>
      match nth_error tbl i with
      | Some ts =>
        if negb (k_live ts) then Some (tbl, [])
        else if tst_eqb (k_st ts) ESTABLISHED && k_lsn ts then Some (set_slot tbl i (revert_to_listen (e_rxmem env) (e_isn env) ts), [])
        else if tst_eqb (k_st ts) SYN_RCVD then
          match free_slot tbl 0 with
          | None => Some (tbl, [])
          | Some j =>
            if negb queued then Some (set_slot tbl j (close_socket (clone (e_rxmem env) ts)), [])
            else
              let tbl1 := set_slot (set_slot tbl j (clone (e_rxmem env) ts)) i (after_accept (e_isn env) ts) in
              if veto then Some (set_slot tbl1 j (close_socket (clone (e_rxmem env) ts)), []) else Some (tbl1, [OSynAck j])
          end
        else Some (tbl, [])
      | None => Some (tbl, [])
      end
  end.
