(** TCP retransmission timeout.  Source: /repo/src/wolfip.c:156-171 (constants), 3071
    (initial value), 3918-3948 (back-off, control timer), 4117-4126 (persist interval),
    4891-4935 (RTT estimator), 5908-5948 (control timeouts), 6028-6060 (data timeouts). *)
From Verif Require Import Base.

Definition RTO_MIN : Z := 1000.          (* wolfip.c:165 *)
Definition RTO_MAX : Z := 60000.         (* wolfip.c:166 *)
Definition RTO_G : Z := 1.               (* wolfip.c:167 *)
Definition BACKOFF_MAX : Z := 64000.     (* wolfip.c:169 *)
Definition PERSIST_MIN : Z := 1000.      (* wolfip.c:170 *)
Definition PERSIST_MAX : Z := 60000.     (* wolfip.c:171 *)
Definition CTRL_MAXRTX : Z := 8.         (* wolfip.c:156 *)
Definition RTO_MAX_BACKOFF : Z := 15.    (* wolfip.c:157 *)

(** The RTT-estimator fields of struct tcpsocket: rto_initialized, srtt, rttvar, rtt, rto. *)
Record rtts := mkRtt { r_init : bool; r_srtt : Z; r_rttvar : Z; r_rtt : Z; r_rto : Z }.
(** wolfip.c:3066-3112, tcp_new_socket: memset 0 then rto = TCP_RTO_MIN_MS. *)
Definition rtt0 : rtts := mkRtt false 0 0 0 RTO_MIN.

(** wolfip.c:4891-4900 tcp_rto_clamp *)
Definition rto_clamp (x : Z) : Z := if x <? RTO_MIN then RTO_MIN else if RTO_MAX <? x then RTO_MAX else x.
(** wolfip.c:4902-4935 tcp_rto_update_from_sample; all arithmetic in uint32_t. *)
Definition rto_update (s : rtts) (sample : Z) : rtts :=
  let sample := if sample =? 0 then 1 else sample in
  let '(srtt, rttvar) :=
    if negb (r_init s) then (u32 (Z.shiftl sample 3), u32 (Z.shiftl sample 1))
    else
      let srtt_ms := Z.shiftr (r_srtt s) 3 in
      let err := if sample <? srtt_ms then u32 (srtt_ms - sample) else u32 (sample - srtt_ms) in
      (Z.shiftr (u32 (u32 (7 * r_srtt s) + u32 (Z.shiftl sample 3))) 3,
       Z.shiftr (u32 (u32 (3 * r_rttvar s) + u32 (Z.shiftl err 2))) 2) in
  let srtt_ms := Z.shiftr srtt 3 in
  let rto := u32 (srtt_ms + (if RTO_G <? rttvar then rttvar else RTO_G)) in
  mkRtt true srtt rttvar srtt_ms (rto_clamp rto).

(** wolfip.c:3919-3927 tcp_backoff_rto_ms *)
Definition backoff_rto (rto retries : Z) : Z :=
  let r := u64 (Z.shiftl rto retries) in if BACKOFF_MAX <? r then BACKOFF_MAX else r.
(** wolfip.c:4117-4126 tcp_persist_interval_ms *)
Definition persist_interval (rto backoff : Z) : Z :=
  let r := u64 (Z.shiftl rto backoff) in
  let r := if r <? PERSIST_MIN then PERSIST_MIN else r in
  if PERSIST_MAX <? r then PERSIST_MAX else r.
(** wolfip.c:4286-4288: back-off after a probe. *)
Definition persist_next (backoff : Z) : Z := if backoff <? 10 then backoff + 1 else backoff.

(** Timers: retry count and deadline. *)
Record rtimer := mkTm { tm_retries : Z; tm_deadline : Z }.
(** wolfip.c:3931-3948 tcp_ctrl_rto_start *)
Definition ctrl_start (rto retries now : Z) : rtimer := mkTm retries (now + backoff_rto rto retries).
(** wolfip.c:5908-5948: a control timeout in SYN_SENT, SYN_RCVD, FIN_WAIT_1 (drained) or
    LAST_ACK; [queued] = the segment could be queued again.  [None] = the connection is
    given up (closed, or a listener reverts to LISTEN). *)
Definition ctrl_timeout (rto : Z) (t : rtimer) (now : Z) (queued : bool) : option rtimer :=
  if CTRL_MAXRTX <=? tm_retries t then None
  else Some (ctrl_start rto (if queued then tm_retries t + 1 else tm_retries t) now).
(** wolfip.c:6028-6060: a data timeout with a segment to retransmit.  [None] = closed. *)
Definition data_timeout (rto : Z) (t : rtimer) (now : Z) : option rtimer :=
  if RTO_MAX_BACKOFF <=? tm_retries t then None
  else let b := tm_retries t + 1 in Some (mkTm b (now + backoff_rto rto b)).
