(** TCP sender: retransmission queue, acknowledgement, retransmission, flow and congestion
    control.  Source: /repo/src/wolfip.c (lines cited at each definition).
    Simplifications: the transmit FIFO is the list of its descriptors (its refinement to
    the circular buffer is FifoProps / C01-C03); a descriptor's IP length and header length
    are represented by the payload bytes; addresses, ARP, filters and the link driver are an
    oracle saying for each transmission attempt whether the frame left; descriptor-walk
    guards ([fifo_desc_budget]) other than the one of flush_tcp_tx are dropped because they
    exceed the number of descriptors; RTT estimation is Rto.v. *)
From Verif Require Import Base ListUtil Seq Rto TcpRecv.

(** One transmit descriptor (struct pkt_desc, wolfip.c:205-215, and the segment behind it).
    [s_txs] is a ghost field: the times at which the segment was put on the wire. *)
Record seg := mkSeg { s_seq : Z; s_pay : list Z; s_sent : bool; s_retr : bool; s_acked : bool; s_was : bool; s_time : Z; s_txs : list Z }.
Definition new_seg (seq : Z) (pay : list Z) : seg := mkSeg seq pay false false false false 0 [].
Definition zfirstn {A} (n : Z) (l : list A) : list A := firstn (Z.to_nat n) l.
Definition zskipn {A} (n : Z) (l : list A) : list A := skipn (Z.to_nat n) l.
Definition slen (s : seg) : Z := zlen (s_pay s).

Inductive cst := CEst | CCloseWait | CFinWait1 | CLastAck.
(** tmr_rto: no timer, an armed timer, or the handle of a timer that has already fired. *)
Inductive rtm := TNone | TArmed (deadline : Z) | TStale.

(** The sender's part of struct tcpsocket (wolfip.c:1198-1262). *)
Record tcb := mkSnd {
  t_q : list seg; t_una : Z; t_nxt : Z; t_infl : Z; t_rwnd : Z; t_cwnd : Z; t_ssth : Z; t_cwcnt : Z;
  t_sackok : bool; t_psack : list (Z * Z); t_fr : bool; t_rp : Z; t_dup : Z; t_erd : bool; t_lera : Z;
  t_backoff : Z; t_rto : rtts; t_tmr : rtm; t_special : bool (* fin_wait_2 / pre-accept timer *); t_ctrl : bool; t_lastwin : Z;
  t_st : cst; t_mss : Z; t_now : Z }.

(** Functional field updates. *)
Definition upd_q (t : tcb) q := mkSnd q (t_una t) (t_nxt t) (t_infl t) (t_rwnd t) (t_cwnd t) (t_ssth t) (t_cwcnt t) (t_sackok t) (t_psack t) (t_fr t) (t_rp t) (t_dup t) (t_erd t) (t_lera t) (t_backoff t) (t_rto t) (t_tmr t) (t_special t) (t_ctrl t) (t_lastwin t) (t_st t) (t_mss t) (t_now t).
Definition upd_una (t : tcb) x := mkSnd (t_q t) x (t_nxt t) (t_infl t) (t_rwnd t) (t_cwnd t) (t_ssth t) (t_cwcnt t) (t_sackok t) (t_psack t) (t_fr t) (t_rp t) (t_dup t) (t_erd t) (t_lera t) (t_backoff t) (t_rto t) (t_tmr t) (t_special t) (t_ctrl t) (t_lastwin t) (t_st t) (t_mss t) (t_now t).
Definition upd_nxt (t : tcb) x := mkSnd (t_q t) (t_una t) x (t_infl t) (t_rwnd t) (t_cwnd t) (t_ssth t) (t_cwcnt t) (t_sackok t) (t_psack t) (t_fr t) (t_rp t) (t_dup t) (t_erd t) (t_lera t) (t_backoff t) (t_rto t) (t_tmr t) (t_special t) (t_ctrl t) (t_lastwin t) (t_st t) (t_mss t) (t_now t).
Definition upd_infl (t : tcb) x := mkSnd (t_q t) (t_una t) (t_nxt t) x (t_rwnd t) (t_cwnd t) (t_ssth t) (t_cwcnt t) (t_sackok t) (t_psack t) (t_fr t) (t_rp t) (t_dup t) (t_erd t) (t_lera t) (t_backoff t) (t_rto t) (t_tmr t) (t_special t) (t_ctrl t) (t_lastwin t) (t_st t) (t_mss t) (t_now t).
Definition upd_rwnd (t : tcb) x := mkSnd (t_q t) (t_una t) (t_nxt t) (t_infl t) x (t_cwnd t) (t_ssth t) (t_cwcnt t) (t_sackok t) (t_psack t) (t_fr t) (t_rp t) (t_dup t) (t_erd t) (t_lera t) (t_backoff t) (t_rto t) (t_tmr t) (t_special t) (t_ctrl t) (t_lastwin t) (t_st t) (t_mss t) (t_now t).
(** congestion window, slow-start threshold, byte counter *)
Definition upd_cw (t : tcb) cw ss cnt := mkSnd (t_q t) (t_una t) (t_nxt t) (t_infl t) (t_rwnd t) cw ss cnt (t_sackok t) (t_psack t) (t_fr t) (t_rp t) (t_dup t) (t_erd t) (t_lera t) (t_backoff t) (t_rto t) (t_tmr t) (t_special t) (t_ctrl t) (t_lastwin t) (t_st t) (t_mss t) (t_now t).
Definition upd_psack (t : tcb) x := mkSnd (t_q t) (t_una t) (t_nxt t) (t_infl t) (t_rwnd t) (t_cwnd t) (t_ssth t) (t_cwcnt t) (t_sackok t) x (t_fr t) (t_rp t) (t_dup t) (t_erd t) (t_lera t) (t_backoff t) (t_rto t) (t_tmr t) (t_special t) (t_ctrl t) (t_lastwin t) (t_st t) (t_mss t) (t_now t).
(** fast-recovery flag and recovery point *)
Definition upd_fr (t : tcb) b rp := mkSnd (t_q t) (t_una t) (t_nxt t) (t_infl t) (t_rwnd t) (t_cwnd t) (t_ssth t) (t_cwcnt t) (t_sackok t) (t_psack t) b rp (t_dup t) (t_erd t) (t_lera t) (t_backoff t) (t_rto t) (t_tmr t) (t_special t) (t_ctrl t) (t_lastwin t) (t_st t) (t_mss t) (t_now t).
(** duplicate-ACK count, early-retransmit flag and mark *)
Definition upd_dup (t : tcb) d e l := mkSnd (t_q t) (t_una t) (t_nxt t) (t_infl t) (t_rwnd t) (t_cwnd t) (t_ssth t) (t_cwcnt t) (t_sackok t) (t_psack t) (t_fr t) (t_rp t) d e l (t_backoff t) (t_rto t) (t_tmr t) (t_special t) (t_ctrl t) (t_lastwin t) (t_st t) (t_mss t) (t_now t).
(** back-off count, RTT estimator and timer *)
Definition upd_tm (t : tcb) b r m := mkSnd (t_q t) (t_una t) (t_nxt t) (t_infl t) (t_rwnd t) (t_cwnd t) (t_ssth t) (t_cwcnt t) (t_sackok t) (t_psack t) (t_fr t) (t_rp t) (t_dup t) (t_erd t) (t_lera t) b r m (t_special t) (t_ctrl t) (t_lastwin t) (t_st t) (t_mss t) (t_now t).
Definition upd_lastwin (t : tcb) x := mkSnd (t_q t) (t_una t) (t_nxt t) (t_infl t) (t_rwnd t) (t_cwnd t) (t_ssth t) (t_cwcnt t) (t_sackok t) (t_psack t) (t_fr t) (t_rp t) (t_dup t) (t_erd t) (t_lera t) (t_backoff t) (t_rto t) (t_tmr t) (t_special t) (t_ctrl t) x (t_st t) (t_mss t) (t_now t).
(** connection state and control-timer flag *)
Definition upd_st (t : tcb) st ctrl := mkSnd (t_q t) (t_una t) (t_nxt t) (t_infl t) (t_rwnd t) (t_cwnd t) (t_ssth t) (t_cwcnt t) (t_sackok t) (t_psack t) (t_fr t) (t_rp t) (t_dup t) (t_erd t) (t_lera t) (t_backoff t) (t_rto t) (t_tmr t) (t_special t) ctrl (t_lastwin t) st (t_mss t) (t_now t).
Definition upd_now (t : tcb) x := mkSnd (t_q t) (t_una t) (t_nxt t) (t_infl t) (t_rwnd t) (t_cwnd t) (t_ssth t) (t_cwcnt t) (t_sackok t) (t_psack t) (t_fr t) (t_rp t) (t_dup t) (t_erd t) (t_lera t) (t_backoff t) (t_rto t) (t_tmr t) (t_special t) (t_ctrl t) (t_lastwin t) (t_st t) (t_mss t) x.

(** ** Sending application data: wolfip.c:6645-6716, wolfIP_sock_sendto, TCP branch.
    [rooms] gives, per iteration, what fifo_max_push_payload (C03) would allow; [cap] is
    tcp_tx_payload_cap; the push then succeeds (C03).  At most 257 iterations
    (push_iter > 256). *)
Fixpoint send_loop (fuel : nat) (nxt : Z) (data : list Z) (cap : Z) (rooms : list Z) : list seg * Z * Z :=
  match fuel, rooms with
  | S f, room :: rooms' =>
    match data with
    | [] => ([], nxt, 0)
    | _ =>
      let plen := Z.max 0 (Z.min room (Z.min cap (zlen data))) in
      if plen =? 0 then ([], nxt, 0)
      else
        let '(segs, nxt', n) := send_loop f (u32 (nxt + plen)) (zskipn plen data) cap rooms' in
        (new_seg nxt (zfirstn plen data) :: segs, nxt', plen + n)
    end
  | _, _ => ([], nxt, 0)
  end.
Definition PUSH_ITER : nat := 257.
(** Result: the new state and the value returned to the application (-11 = EAGAIN, -1 = error). *)
Definition tcp_sock_send (t : tcb) (data : list Z) (cap : Z) (rooms : list Z) : tcb * Z :=
  match data with [] => (t, -1) | _ =>
  match t_st t with
  | CEst | CCloseWait =>
    let '(segs, nxt', n) := send_loop PUSH_ITER (t_nxt t) data cap rooms in
    if n =? 0 then (t, -11) else (upd_nxt (upd_q t (t_q t ++ segs)) nxt', n)
  | _ => (t, -1)
  end end.

(** wolfip.c:3602-3637 tcp_send_empty: a pure ACK or FIN is queued behind whatever is
    queued ([room] = the FIFO accepts it; otherwise an ACK is sent immediately or fails). *)
Definition tcp_send_empty (t : tcb) (room : bool) : tcb := if room then upd_q t (t_q t ++ [new_seg (t_nxt t) []]) else t.

(** ** SACK scoreboard *)
(** wolfip.c:4953-4967 tcp_block_covers_seq / tcp_is_range_sacked *)
Definition is_range_sacked (bl : list (Z * Z)) (st en : Z) : bool :=
  existsb (fun b => tcp_seq_leq (fst b) st && tcp_seq_leq en (snd b)) bl.
(** wolfip.c:4981-5000: one block clipped to [SND.UNA, SND.NXT]. *)
Definition clip_block (una nxt : Z) (b : Z * Z) : list (Z * Z) :=
  let '(l, r) := b in
  if negb (tcp_seq_lt l r) then [] else if tcp_seq_leq r una then [] else if tcp_seq_leq nxt l then []
  else let l' := if tcp_seq_lt l una then una else l in let r' := if tcp_seq_lt nxt r then nxt else r in
  if negb (tcp_seq_lt l' r') then [] else [(l', r')].
(** wolfip.c:4969-5005 tcp_process_sack; [blocks] as parsed (at most 4: C14). *)
Definition process_sack (t : tcb) (blocks : list (Z * Z)) : tcb :=
  if negb (t_sackok t) then upd_psack t []
  else upd_psack t (merge_blocks tcp_seq_lt tcp_seq_leq (firstn 4 (flat_map (clip_block (t_una t) (t_nxt t)) blocks))).

(** ** Choosing a segment to retransmit *)
Definition mark_seg (s : seg) : seg := mkSeg (s_seq s) (s_pay s) false true (s_acked s) (s_was s) (s_time s) (s_txs s).
Inductive mres := MNone | MPending | MMarked (len : Z).
(** wolfip.c:5025-5082, one pass of tcp_mark_unsacked_for_retransmit. *)
Fixpoint mark_scan (psack : list (Z * Z)) (ack : Z) (l : list seg) : mres * list seg :=
  match l with
  | [] => (MNone, [])
  | s :: r =>
    let skip := let '(m, r') := mark_scan psack ack r in (m, s :: r') in
    let en := tcp_seq_inc (s_seq s) (slen s) in
    if slen s =? 0 then skip
    else if tcp_seq_leq en ack then skip
    else if is_range_sacked psack (s_seq s) en then skip
    else if tcp_seq_leq (s_seq s) ack && tcp_seq_lt ack en then
      if negb (s_sent s) then (MPending, l) else (MMarked (slen s), mark_seg s :: r)
    else skip
  end.
(** wolfip.c:5009-5098 tcp_mark_unsacked_for_retransmit: second pass without the scoreboard
    if no segment was found.  Returns whether something is (now) pending. *)
Definition mark_unsacked (t : tcb) (ack : Z) : tcb * bool :=
  let apply ps m q' :=
    match m with
    | MNone => (upd_psack t ps, false)
    | MPending => (upd_psack t ps, true)
    | MMarked n => (upd_psack (upd_infl (upd_q t q') (if t_infl t <=? n then 0 else t_infl t - n)) ps, true)
    end in
  match mark_scan (t_psack t) ack (t_q t) with
  | (MNone, _) => match t_psack t with
                  | [] => apply [] MNone []
                  | _ => let '(m, q') := mark_scan [] ack (t_q t) in apply [] m q'
                  end
  | (m, q') => apply (t_psack t) m q'
  end.

(** ** Receiving an acknowledgement *)
Definition ack_seg (s : seg) : seg := mkSeg (s_seq s) (s_pay s) false false true (s_was s) (s_time s) (s_txs s).
(** wolfip.c:5154-5175: from the head while SENT: drop empty segments when at the head,
    mark covered ones ACKED.  fifo_pop (5160) removes the head of the FIFO: when an empty
    segment is met after some covered ones, the oldest of those is popped instead and the
    walk restarts at the head, whose flag is then not SENT, so it stops.
    Returns the queue and ack_count. *)
Fixpoint ack_scan (ack : Z) (marked l : list seg) (n : Z) : list seg * Z :=
  match l with
  | [] => (marked, n)
  | s :: r =>
    if negb (s_sent s) then (marked ++ l, n)
    else if slen s =? 0 then
      match marked with
      | [] => ack_scan ack [] r n                 (* the empty segment is the head: popped *)
      | [_] => ack_scan ack [] r n                (* pops the marked head, then the empty one *)
      | _ :: ms => (ms ++ l, n)                   (* pops the oldest marked; new head not SENT *)
      end
    else if tcp_seq_leq (u32 (s_seq s + slen s)) ack then ack_scan ack (marked ++ [ack_seg s]) r (n + 1)
    else (marked ++ l, n)
  end.
(** wolfip.c:5247-5252: pop the ACKED run at the head; the last one popped. *)
Fixpoint pop_acked (l : list seg) (last : option seg) : list seg * option seg :=
  match l with s :: r => if s_acked s then pop_acked r (Some s) else (l, last) | [] => ([], last) end.

(** An incoming ACK as tcp_ack sees it.  [a_ts] is the RTT sample tcp_process_ts takes from
    the timestamp echo (None: no usable echo). *)
Record ackseg := mkAck { a_ack : Z; a_win : Z; a_paylen : Z; a_sack : list (Z * Z); a_ts : option Z }.

Definition arm (t : tcb) (d : Z) : rtm := TArmed (t_now t + d).
(** wolfip.c:5177-5243: the acknowledgement advances SND.UNA.  Returns the state and the
    flags recovery_partial_ack || recovery_exit_ack. *)
Definition ack_advance (t : tcb) (ack : Z) : tcb * bool :=
  let delta := u32 (ack - t_una t) in
  let smss := t_mss t in
  let t := upd_una (upd_infl t (if t_infl t <=? delta then 0 else t_infl t - delta)) ack in
  let t := upd_dup t 0 false ack in
  let tm := if t_special t then t_tmr t else if 0 <? t_infl t then arm t (r_rto (t_rto t)) else TNone in
  let t := upd_tm t 0 (t_rto t) tm in
  if t_fr t then
    if tcp_seq_lt ack (t_rp t) then
      let t := upd_dup t 3 (t_erd t) (t_lera t) in
      let cw := u32 ((if t_cwnd t <=? delta then smss else t_cwnd t - delta) + smss) in
      let cw := if cw <? u32 (t_ssth t + smss) then u32 (t_ssth t + smss) else cw in
      let t := upd_cw t cw (t_ssth t) 0 in
      (fst (mark_unsacked t ack), true)
    else (upd_cw (upd_dup (upd_fr t false ack) 0 (t_erd t) (t_lera t)) (t_ssth t) (t_ssth t) 0, true)
  else (t, false).
(** wolfip.c:5268-5292: congestion window growth. *)
Definition cwnd_grow (t : tcb) (inflight_pre : Z) (blocked advanced : bool) : tcb :=
  let smss := t_mss t in
  if advanced && negb blocked && ((t_cwnd t <=? u32 (inflight_pre + smss)) || (t_cwnd t <=? u32 (2 * smss))) then
    if t_cwnd t <? t_ssth t then upd_cw t (u32 (t_cwnd t + smss)) (t_ssth t) (t_cwcnt t)
    else
      let cnt := u32 (t_cwcnt t + smss) in
      if t_cwnd t <=? cnt then upd_cw t (u32 (t_cwnd t + smss)) (t_ssth t) (cnt - t_cwnd t) else upd_cw t (t_cwnd t) (t_ssth t) cnt
  else t.
(** wolfip.c:5296-5341: duplicate ACK. *)
Definition dup_ack (t : tcb) (a : ackseg) (inflight_pre : Z) (win_changed : bool) : tcb :=
  if negb (a_ack a =? t_una t) || (inflight_pre =? 0) || (0 <? a_paylen a) || win_changed then t
  else
    let t := upd_dup t (if t_dup t <? 255 then t_dup t + 1 else t_dup t) (t_erd t) (t_lera t) in
    let early := match rev (t_psack t) with
                 | [] => false
                 | b :: _ => (2 <=? t_dup t) && tcp_seq_lt (a_ack a) (snd b) && (negb (t_erd t) || negb (t_lera t =? a_ack a))
                 end in
    let '(t, done) := if early then let '(t', ok) := mark_unsacked t (a_ack a) in if ok then (upd_dup t' (t_dup t') true (a_ack a), true) else (t', false)
                      else (t, false) in
    if done then t
    else if t_dup t <? 3 then t
    else if t_dup t =? 3 then
      let smss := t_mss t in
      let ss := if inflight_pre / 2 <? u32 (2 * smss) then u32 (2 * smss) else inflight_pre / 2 in
      let t := upd_cw t (u32 (ss + 3 * smss)) ss 0 in
      fst (mark_unsacked (upd_fr t true (t_nxt t)) (a_ack a))
    else upd_cw t (u32 (t_cwnd t + t_mss t)) (t_ssth t) (t_cwcnt t).
(** wolfip.c:5100-5341 tcp_ack from line 5151 on (the FIN handling of 5119-5149 is C19).
    Returns the state and the RTT sample fed to the estimator. *)
Definition tcp_ack (t : tcb) (a : ackseg) : tcb * option Z :=
  let inflight_pre := t_infl t in
  let win_changed := negb (a_win a =? t_lastwin t) in
  let t := process_sack (upd_lastwin t (a_win a)) (a_sack a) in
  let '(q1, n) := ack_scan (a_ack a) [] (t_q t) 0 in
  let t := upd_q t q1 in
  let adv := negb (t_una t =? a_ack a) && tcp_seq_leq (t_una t) (a_ack a) && tcp_seq_leq (a_ack a) (t_nxt t) in
  let '(t, blocked) := if adv then ack_advance t (a_ack a) else (t, false) in
  if 0 <? n then
    let '(q2, fresh) := pop_acked (t_q t) None in
    let t := upd_q t q2 in
    match fresh with
    | None => (t, None)
    | Some s =>
      let sample := if s_was s then None
                    else match a_ts a with
                         | Some r => Some r
                         | None => if s_time s <=? t_now t then Some (u32 (t_now t - s_time s)) else None
                         end in
      let t := match sample with Some r => upd_tm t (t_backoff t) (rto_update (t_rto t) r) (t_tmr t) | None => t end in
      (cwnd_grow t inflight_pre blocked adv, sample)
    end
  else (dup_ack t a inflight_pre win_changed, None).

(** ** Timers *)
(** wolfip.c:4094-4115 tcp_has_pending_unsent_payload *)
Definition has_unsent (q : list seg) : bool := existsb (fun s => negb (slen s =? 0) && negb (s_sent s)) q.
(** wolfip.c:3884-3904 tcp_ctrl_state_needs_rto *)
Definition ctrl_needs (t : tcb) : bool :=
  match t_st t with CLastAck => true | CFinWait1 => (t_infl t =? 0) && negb (has_unsent (t_q t)) | _ => false end.
(** wolfip.c:5956-6001: walk to the segment covering SND.UNA (the scoreboard was just
    cleared); the lowest SENT payload segment seen on the way. *)
Fixpoint rto_scan (una : Z) (l : list seg) (i : nat) (first : option (nat * Z)) : option nat * bool * option (nat * Z) :=
  match l with
  | [] => (None, false, first)
  | s :: r =>
    let en := tcp_seq_inc (s_seq s) (slen s) in
    let cover := negb (slen s =? 0) && tcp_seq_leq (s_seq s) una && tcp_seq_lt una en in
    if s_sent s then
      let first' := if negb (slen s =? 0) && (match first with None => true | Some (_, f) => tcp_seq_lt (s_seq s) f end) then Some (i, s_seq s) else first in
      if cover then (Some i, false, first') else rto_scan una r (S i) first'
    else if cover then (None, true, first) else rto_scan una r (S i) first
  end.
Definition upd_nth (i : nat) (f : seg -> seg) (l : list seg) : list seg :=
  match nth_error l i with Some s => set_nth i (f s) l | None => l end.
(** wolfip.c:5867-6060 tcp_rto_cb (timer already removed from the heap: tmr_rto is stale),
    for the states of this model; [room] = a FIN can be queued.  [None]: the connection is
    closed.  The control-retry count is modelled in Rto.ctrl_timeout; here [giveup] tells
    whether it was exhausted. *)
Definition tcp_rto_cb (t : tcb) (room giveup : bool) : option tcb :=
  let t := upd_tm t (t_backoff t) (t_rto t) TStale in
  if ctrl_needs t || t_ctrl t then
    if negb (ctrl_needs t) then Some (upd_st (upd_tm t (t_backoff t) (t_rto t) TNone) (t_st t) false)
    else if giveup then None
    else Some (upd_st (upd_tm (tcp_send_empty t room) (t_backoff t) (t_rto t) (arm t (r_rto (t_rto t)))) (t_st t) true)
  else match t_st t with
  | CEst | CFinWait1 =>
    let '(cov, _, first) := rto_scan (t_una t) (t_q t) 0 None in
    let target := match cov with Some i => Some i | None => match first with Some (i, _) => Some i | None => None end end in
    match target with
    | Some i =>
      if RTO_MAX_BACKOFF <=? t_backoff t then None
      else
        let b := t_backoff t + 1 in
        let smss := t_mss t in
        let ss := if t_infl t / 2 <? u32 (2 * smss) then u32 (2 * smss) else t_infl t / 2 in
        let t' := upd_psack (upd_infl (upd_q t (upd_nth i mark_seg (t_q t))) 0) [] in
        Some (upd_tm (upd_fr (upd_cw t' smss ss (t_cwcnt t)) false (t_una t)) b (t_rto t) (arm t (backoff_rto (r_rto (t_rto t)) b)))
    | None => Some (upd_tm (upd_psack (upd_infl t 0) []) 0 (t_rto t) TNone)
    end
  | _ => Some t
  end.
(** wolfip.c:6063-6108 tcp_resync_inflight *)
Definition sent_bytes (q : list seg) : Z := fold_right (fun s n => (if s_sent s then slen s else 0) + n) 0 q.
Definition resync (t : tcb) : tcb :=
  if ctrl_needs t || t_ctrl t then t
  else
    let n := sent_bytes (t_q t) in
    let t := upd_infl t n in
    if t_special t then t
    else match t_tmr t with
    | TNone => if 0 <? n then upd_tm t (t_backoff t) (t_rto t) (arm t (backoff_rto (r_rto (t_rto t)) (t_backoff t))) else t
    | _ => if 0 <? n then t else upd_tm t (t_backoff t) (t_rto t) TNone
    end.

(** ** Transmission: wolfip.c:11288-11449 flush_tcp_tx, one socket *)
(** The loop cursor: a queued descriptor, or one just popped (its memory is still read). *)
Inductive cursor := At (i : nat) | Popped (s : seg).
Record txlog := mkTx { x_seq : Z; x_pay : list Z; x_retr : bool }.
Definition cur_seg (q : list seg) (c : cursor) : option seg := match c with At i => nth_error q i | Popped s => Some s end.
(** wolfip.c:6112-6135 tcp_find_pending_retrans, from the cursor on. *)
Fixpoint find_retr (l : list seg) (i : nat) : option nat :=
  match l with [] => None | s :: r => if s_retr s && negb (s_sent s) && negb (slen s =? 0) then Some i else find_retr r (S i) end.
Definition sent_seg (now : Z) (s : seg) : seg := mkSeg (s_seq s) (s_pay s) true false (s_acked s) (s_was s || s_retr s) now (s_txs s ++ [now]).
(** [oks]: outcome of each transmission attempt (false: ARP miss, filter, driver busy). *)
Fixpoint flush_loop (fuel : nat) (t : tcb) (c : cursor) (oks : list bool) : tcb * list txlog :=
  match fuel with
  | O => (t, [])
  | S f =>
    match cur_seg (t_q t) c with
    | None => (t, [])
    | Some s =>
      let next := match c with At i => At (S i) | Popped _ => At 0 end in
      if s_sent s then flush_loop f t next oks
      else match oks with
      | true :: oks' =>
        let wnd := Z.min (t_cwnd t) (t_rwnd t) in
        if s_retr s || (slen s =? 0) || ((t_infl t <? wnd) && (slen s <=? wnd - t_infl t)) then
          let s' := sent_seg (t_now t) s in
          let t1 := match c with At i => upd_q t (set_nth i s' (t_q t)) | Popped _ => t end in
          let out := mkTx (s_seq s) (s_pay s) (s_retr s) in
          if slen s =? 0 then
            match t_q t1 with
            | [] => let '(t2, o) := (t1, []) in (t2, out :: o)
            | h :: r => let '(t2, o) := flush_loop f (upd_q t1 r) (Popped h) oks' in (t2, out :: o)
            end
          else
            let t1 := upd_tm t1 (t_backoff t1) (t_rto t1) (arm t1 (backoff_rto (r_rto (t_rto t1)) (t_backoff t1))) in
            let t1 := if s_retr s then t1 else upd_infl t1 (t_infl t1 + slen s) in
            let '(t2, o) := flush_loop f t1 next oks' in (t2, out :: o)
        else
          let start := match c with At i => i | Popped _ => O end in
          match find_retr (skipn start (t_q t)) start with
          | Some j => flush_loop f t (At j) oks
          | None => (t, [])
          end
      | _ => (t, [])
      end
    end
  end.
(** send_budget = fifo_desc_budget(32768) = 32768 / 16 + 2 (wolfip.c:521-526). *)
Definition SEND_BUDGET : nat := Z.to_nat 2050.
Definition flush_tcp_tx (t : tcb) (oks : list bool) : tcb * list txlog := flush_loop SEND_BUDGET (resync t) (At 0) oks.

(** ** Zero-window probe: wolfip.c:4166-4270, 4272-4290.  [None]: nothing sent. *)
Fixpoint probe_find (una : Z) (l : list seg) : option (Z * Z) :=
  match l with
  | [] => None
  | s :: r =>
    if slen s =? 0 then probe_find una r
    else if tcp_seq_leq (s_seq s) una && tcp_seq_lt una (tcp_seq_inc (s_seq s) (slen s))
    then match nth_error (s_pay s) (Z.to_nat (u32 (una - s_seq s))) with Some b => Some (una, b) | None => None end
    else match s_pay s with b :: _ => Some (s_seq s, b) | [] => None end
  end.
Definition persist_probe (t : tcb) : option (Z * Z) :=
  match t_st t with
  | CEst | CCloseWait => if (0 <? t_rwnd t) || negb (has_unsent (t_q t)) then None else probe_find (t_una t) (t_q t)
  | _ => None
  end.

(** ** Close: wolfip.c:7673-7705, ESTABLISHED and CLOSE_WAIT. *)
Definition tcp_sock_close (t : tcb) (room : bool) : tcb :=
  match t_st t with
  | CEst | CCloseWait =>
    if room then upd_st (upd_tm (tcp_send_empty t true) (t_backoff t) (t_rto t) (arm t (r_rto (t_rto t)))) (match t_st t with CEst => CFinWait1 | _ => CLastAck end) true
    else t
  | _ => t
  end.

(** ** The sender as a machine *)
Inductive act :=
| ASend (data : list Z) (cap : Z) (rooms : list Z)
| AEmpty (room : bool)          (* an ACK is due (or retried) *)
| AAck (a : ackseg)
| AWin (w : Z)                  (* peer_rwnd update, wolfip.c:5473-5485 *)
| ARto (room giveup : bool)
| AFlush (oks : list bool)
| AProbe
| AClose (room : bool)
| APeerFin                      (* ESTABLISHED -> CLOSE_WAIT *)
| ATick (now : Z).
(** Observable effects: bytes accepted from the application, frames on the wire. *)
Inductive obs := OAccepted (n : Z) | OTx (x : txlog) | OProbe (seq byte : Z) | OSample (r : Z).
Definition step (t : tcb) (a : act) : option (tcb * list obs) :=
  match a with
  | ASend d cap rooms => let '(t', n) := tcp_sock_send t d cap rooms in Some (t', [OAccepted n])
  | AEmpty room => Some (tcp_send_empty t room, [])
  | AAck a => let '(t', r) := tcp_ack t a in Some (t', match r with Some r => [OSample r] | None => [] end)
  | AWin w => Some (upd_rwnd t w, [])
  | ARto room g => match tcp_rto_cb t room g with Some t' => Some (t', []) | None => None end
  | AFlush oks => let '(t', o) := flush_tcp_tx t oks in Some (t', map OTx o)
  | AProbe => Some (t, match persist_probe t with Some (s, b) => [OProbe s b] | None => [] end)
  | AClose room => Some (tcp_sock_close t room, [])
  | APeerFin => Some (match t_st t with CEst => upd_st t CCloseWait (t_ctrl t) | _ => t end, [])
  | ATick now => Some (upd_now t now, [])
  end.
