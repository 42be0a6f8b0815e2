(** Specification for the TCP state machine, from RFC 9293 (sections 3.3.2, 3.10) and
    RFC 5961 / 7323, over the connection variables only. *)
From Verif Require Import Base ListUtil Seq SeqProps Queue TcpRecv TcpState.

(** Receive window (RCV.WND) and membership of a sequence number in it, modulo 2^32. *)
Definition rcv_wnd (t : sk) : Z := queue_space (rx_q (k_rx t)).
Definition in_window (nxt wnd x : Z) : Prop := (x - nxt) mod 2^32 < wnd.
(** Sequence acceptability: the first or the last octet (SYN and FIN included) lies in the
    window; with an empty window only an empty segment at RCV.NXT. *)
Definition seq_acceptable (t : sk) (g : tseg) : Prop :=
  (g_len g = 0 /\ g_seq g = k_ack t) \/ in_window (k_ack t) (rcv_wnd t) (g_seq g)
  \/ (0 < g_len g /\ in_window (k_ack t) (rcv_wnd t) (g_seq g + g_len g - 1)).
(** The segment's 4-tuple is the connection's. *)
Definition same_connection (t : sk) (g : tseg) : Prop :=
  k_lport t = g_dport g /\ k_rport t = g_sport g /\ k_rip t = g_src g /\ (k_lip t = 0 \/ k_lip t = g_dst g).
(** [x] is at or after [y] on the sequence circle (half the space ahead at most). *)
Definition at_or_after (x y : Z) : Prop := (x - y) mod 2^32 <= 2^31.
(** The acknowledgement covers our FIN, whose sequence number is [k_last]. *)
Definition acks_fin (t : sk) (g : tseg) : Prop := g_ack g = true /\ at_or_after (g_ackn g) (k_last t + 1).
(** The acknowledgement is exactly that of our SYN ([k_una] = ISS before it is acknowledged). *)
Definition acks_syn (t : sk) (g : tseg) : Prop := g_ack g = true /\ g_ackn g = (k_una t + 1) mod 2^32.
(** TS.Recent, in host order. *)
Definition ts_recent (t : sk) : Z := bswap32 (k_lts t).
(** PAWS: with timestamps negotiated the segment carries one that is not before TS.Recent. *)
Definition paws_ok (t : sk) (g : tseg) : Prop :=
  k_ts t = true -> exists v, g_ts g = Some v /\ (k_tsv t = true -> at_or_after v (ts_recent t) ).
(** A segment that a synchronized connection may act upon. *)
Definition valid_sync (t : sk) (g : tseg) : Prop :=
  g_rst g = false /\ g_syn g = false /\ g_ack g = true /\ seq_acceptable t g /\ paws_ok t g.

(** State changes a segment may cause (RFC 9293 Figure 5, simultaneous close and the resets
    of section 3.10.7 included). *)
Inductive seg_edge (t : sk) (g : tseg) : tst -> tst -> Prop :=
| E_listen_syn : k_lport t = g_dport g -> g_syn g = true -> g_ack g = false -> g_rst g = false -> seg_edge t g LISTEN SYN_RCVD
| E_synack : same_connection t g -> g_syn g = true -> g_rst g = false -> acks_syn t g -> seg_edge t g SYN_SENT ESTABLISHED
| E_final_ack : same_connection t g -> g_rst g = false -> acks_syn t g -> seq_acceptable t g -> seg_edge t g SYN_RCVD ESTABLISHED
| E_final_ack_fin : same_connection t g -> g_rst g = false -> acks_syn t g -> seq_acceptable t g -> g_fin g = true ->
    seg_edge t g SYN_RCVD CLOSE_WAIT
| E_fin : same_connection t g -> valid_sync t g -> g_fin g = true -> seg_edge t g ESTABLISHED CLOSE_WAIT
| E_fw1_ack : same_connection t g -> valid_sync t g -> acks_fin t g -> seg_edge t g FIN_WAIT_1 FIN_WAIT_2
| E_fw1_fin : same_connection t g -> valid_sync t g -> ~ acks_fin t g -> g_fin g = true -> seg_edge t g FIN_WAIT_1 CLOSING
| E_fw1_fin_ack : same_connection t g -> valid_sync t g -> acks_fin t g -> g_fin g = true -> seg_edge t g FIN_WAIT_1 TIME_WAIT
| E_fw2_fin : same_connection t g -> valid_sync t g -> g_fin g = true -> seg_edge t g FIN_WAIT_2 TIME_WAIT
| E_closing_ack : same_connection t g -> valid_sync t g -> acks_fin t g -> seg_edge t g CLOSING TIME_WAIT
| E_last_ack : same_connection t g -> valid_sync t g -> acks_fin t g -> seg_edge t g LAST_ACK CLOSED
| E_rst_syn_sent : same_connection t g -> g_rst g = true -> acks_syn t g -> seg_edge t g SYN_SENT CLOSED
| E_rst_listener : same_connection t g -> g_rst g = true -> g_seq g = k_ack t -> k_lsn t = true -> seg_edge t g SYN_RCVD LISTEN
| E_rst : forall s, conn_state s = true -> s <> SYN_SENT -> same_connection t g -> g_rst g = true -> g_seq g = k_ack t -> seg_edge t g s CLOSED.

(** State changes other events may cause in slot [i].  [CTRL_MAXRTX] = 8 retransmissions of a SYN,
    SYN-ACK or FIN. *)
Inductive other_edge (i : nat) (t : sk) : ev -> tst -> tst -> Prop :=
| E_listen : other_edge i t (EListen i false) CLOSED LISTEN
| E_connect : forall lip rip rport rnd, other_edge i t (EConnect i false false true lip rip rport rnd) CLOSED SYN_SENT
| E_accept : forall q v, other_edge i t (EAccept i q v) SYN_RCVD LISTEN
| E_accept_late : forall q v, k_lsn t = true -> other_edge i t (EAccept i q v) ESTABLISHED LISTEN
| E_close_est : other_edge i t (EClose i true) ESTABLISHED FIN_WAIT_1
| E_close_cw : other_edge i t (EClose i true) CLOSE_WAIT LAST_ACK
| E_close_abort : forall q s, In s [LISTEN; SYN_SENT; SYN_RCVD; TIME_WAIT; LAST_ACK] -> other_edge i t (EClose i q) s CLOSED
| E_fw2_timeout : forall p g r q, k_fw2 t = true -> other_edge i t (ETimer i p g r q) FIN_WAIT_2 CLOSED
| E_preaccept : forall p g r q, k_lsn t = true -> k_pre t = true -> other_edge i t (ETimer i p g r q) ESTABLISHED LISTEN
| E_ctrl_listener : forall p g r q, k_lsn t = true -> 8 <= k_retr t -> other_edge i t (ETimer i p g r q) SYN_RCVD LISTEN
| E_ctrl_giveup : forall p g r q s, In s [SYN_SENT; SYN_RCVD; FIN_WAIT_1; LAST_ACK] -> 8 <= k_retr t -> other_edge i t (ETimer i p g r q) s CLOSED
| E_data_giveup : forall p r q s, In s [ESTABLISHED; FIN_WAIT_1] -> other_edge i t (ETimer i p true r q) s CLOSED
| E_icmp : forall s, In s [SYN_SENT; SYN_RCVD] -> other_edge i t (EIcmp i (k_una t)) s CLOSED.
