(** Two wolfIP hosts and a network: one direction of a TCP connection.
    The sending host is the machine of TcpSend.v, the receiving host the one of TcpRecv.v;
    what they do is defined there (with the /repo lines).  This file only defines how they
    are connected.
    Simplifications: the SYN handshake has completed (initial sequence number [irs] known to
    both); the sender does not close (FIN is not part of this direction); the ACK number of
    every segment the receiver emits goes through [y_acks], every other field an ACK carries
    (window, SACK blocks, timestamps) is arbitrary. *)
From Verif Require Import Base ListUtil Seq TcpRecv TcpSack TcpSend TcpSendProofs TcpSendProps TcpRecvProps.

(** A segment or ACK in the network.  The first field is not on the wire: it is how many
    bytes send() had accepted when the packet was emitted, and serves only to say how old
    a packet is. *)
Record wseg := mkW { w_born : Z; w_seq : Z; w_pay : list Z }.
Record wack := mkK { k_born : Z; k_no : Z }.
Record sys := mkSys {
  y_snd : tcb;            (* sending host *)
  y_w : list Z;           (* every byte its send() calls have accepted, in order *)
  y_segs : list wseg;     (* every data segment it ever emitted *)
  y_acks : list wack;     (* every acknowledgement the receiving host ever emitted *)
  y_rcv : rxs;            (* receiving host *)
  y_out : list Z }.       (* every byte its recv() calls have returned, in order *)

(** Frames the sender emits in one step: transmissions, retransmissions, window probes. *)
Definition frames (n : Z) (os : list obs) : list wseg :=
  flat_map (fun o => match o with OTx x => [mkW n (x_seq x) (x_pay x)] | OProbe s b => [mkW n s [b]] | _ => [] end) os.

(** Bounds: the send queue never holds more than 2^27 bytes (the real one: 32768), and no
    packet survives in the network while 2^27 more bytes are accepted by send(). *)
Definition QMAX : Z := 134217728.
Definition LIFE : Z := 134217728.

(** [strict]: the sender queues no bare ACK behind unacknowledged data (C43). *)
Definition sender_event (strict : bool) (t : tcb) (a : act) : Prop :=
  ok_act a /\ (strict = true -> orderly t a) /\ match a with AAck _ | AClose _ => False | _ => True end.

Inductive sstep (strict : bool) : sys -> sys -> Prop :=
(* the sending host: send(), timers, transmissions, window changes, ... *)
| s_snd : forall t w sg ks st out a t' os, sender_event strict t a -> step t a = Some (t', os) -> zlen (bytes (t_q t')) <= QMAX ->
    sstep strict (mkSys t w sg ks st out) (mkSys t' (w ++ accepted a os) (sg ++ frames (zlen w) os) ks st out)
(* the network delivers any segment ever emitted: loss, duplication, reordering *)
| s_deliver : forall t w sg ks st out p st' o acks, In p sg -> zlen w - w_born p <= LIFE ->
    seg_input st (w_seq p) (w_pay p) false = Some (st', acks) -> o = map (fun a => mkK (zlen w) (fst a)) acks ->
    sstep strict (mkSys t w sg ks st out) (mkSys t w sg (ks ++ o) st' out)
(* the receiving host acknowledges on its own (any segment it sends carries its ACK number) *)
| s_ack_now : forall t w sg ks st out, sstep strict (mkSys t w sg ks st out) (mkSys t w sg (ks ++ [mkK (zlen w) (fst (ack_of st))]) st out)
(* the receiving application reads *)
| s_read : forall t w sg ks st out shift len st' bs acks, 0 <= len < 4294967296 -> sock_recv st shift len = Some (st', (bs, acks)) ->
    sstep strict (mkSys t w sg ks st out) (mkSys t w sg (ks ++ map (fun a => mkK (zlen w) (fst a)) acks) st' (out ++ bs))
(* the network delivers any acknowledgement ever emitted *)
| s_ack : forall t w sg ks st out k a t' os, In k ks -> zlen w - k_born k <= LIFE -> a_ack a = k_no k -> step t (AAck a) = Some (t', os) ->
    sstep strict (mkSys t w sg ks st out) (mkSys t' w sg ks st out).

(** Both ends just after the handshake: the sender's first byte has number irs + 1, the
    receiver has a ring of [cap] bytes. *)
Inductive sreach (strict : bool) (irs cap : Z) : sys -> Prop :=
| sr_init : forall t mem, fresh (u32 (irs + 1)) t -> zlen mem = cap + 1 -> sreach strict irs cap (mkSys t [] [] [] (rx_init mem (cap + 1) irs) [])
| sr_step : forall s s', sreach strict irs cap s -> sstep strict s s' -> sreach strict irs cap s'.
