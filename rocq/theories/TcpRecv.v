(** The receiving half of a TCP connection: in-order insertion, out-of-order cache,
    SACK bookkeeping, FIN.  Source: /repo/src/wolfip.c:3136-3161 (acceptability),
    3265-3300 (SACK sort / merge), 3302-3352 (rebuild), 3354-3417 (store), 3419-3483
    (consume), 4302-4347 (tcp_recv), 5755-5835 (tcp_input, data-transfer states),
    7043-7080 (recv).  TCP_MSS_MAX = 1460, TCP_OOO_MAX_SEGS = TCP_SACK_MAX_BLOCKS = 4.
    Simplifications: the segment is (sequence number, payload, FIN flag), i.e. header
    parsing, PAWS and the processing of its ACK field are elsewhere; the connection is
    in a state in which tcp_recv stores data (ESTABLISHED, CLOSE_WAIT, FIN_WAIT_1,
    FIN_WAIT_2); the effect of tcp_send_ack is the pair (cumulative ACK, SACK blocks)
    that the segment built by tcp_send_empty carries. *)
From Verif Require Import Base ListUtil Seq Queue HttpUrl.

Definition MSS_MAX : Z := 1460.

(** struct tcp_ooo_seg, wolfip.c:751-755 *)
Record slot := mkSlot { o_used : bool; o_seq : Z; o_len : Z; o_data : list Z }.
Definition slot0 : slot := mkSlot false 0 0 (repeat 0 1460).
(** The receive part of struct tcpsocket (wolfip.c:1180-1225). *)
Record rxs := mkRx { rx_q : queue; rx_ack : Z; rx_ooo : list slot; rx_sack : list (Z * Z) }.
(** wolfip.c:3066-3112 (tcp_new_socket) and 5595 / 5626 (ACK number after the SYN). *)
Definition rx_init (mem : list Z) (size irs : Z) : rxs :=
  mkRx (queue_init mem size 0) (tcp_seq_inc irs 1) (repeat slot0 4) [].

(** wolfip.c:3265-3278 tcp_sort_sack_blocks: one pass of the inner loop with blocks[i]
    = [h] over blocks[i+1 ..]; then the rest. *)
Fixpoint sort_pass (lt : Z -> Z -> bool) (h : Z * Z) (r : list (Z * Z)) : (Z * Z) * list (Z * Z) :=
  match r with
  | [] => (h, [])
  | b :: r' =>
      if lt (fst b) (fst h) then let '(h', r'') := sort_pass lt b r' in (h', h :: r'')
      else let '(h', r'') := sort_pass lt h r' in (h', b :: r'')
  end.
Fixpoint sort_blocks (lt : Z -> Z -> bool) (n : nat) (l : list (Z * Z)) : list (Z * Z) :=
  match n, l with
  | S n', h :: r => let '(h', r') := sort_pass lt h r in h' :: sort_blocks lt n' r'
  | _, _ => l
  end.
(** wolfip.c:3280-3300 tcp_merge_sack_blocks; [cur] = blocks[out]. *)
Fixpoint merge_go (lt leq : Z -> Z -> bool) (cur : Z * Z) (r : list (Z * Z)) : list (Z * Z) :=
  match r with
  | [] => [cur]
  | b :: r' =>
      if lt (fst b) (snd cur) then merge_go lt leq (if negb (leq (snd b) (snd cur)) then (fst cur, snd b) else cur) r'
      else if fst b =? snd cur then merge_go lt leq (fst cur, snd b) r'
      else cur :: merge_go lt leq b r'
  end.
Definition merge_blocks (lt leq : Z -> Z -> bool) (l : list (Z * Z)) : list (Z * Z) :=
  match sort_blocks lt (length l) l with [] => [] | b :: r => merge_go lt leq b r end.

(** wolfip.c:3315-3324: blocks of the used, non-empty slots. *)
Fixpoint ooo_blocks (l : list slot) : list (Z * Z) :=
  match l with
  | [] => []
  | s :: l' => if negb (o_used s) || (o_len s =? 0) then ooo_blocks l'
               else (o_seq s, tcp_seq_inc (o_seq s) (o_len s)) :: ooo_blocks l'
  end.
(** wolfip.c:3338-3351: move the first block containing [trig] to the front. *)
Fixpoint take_first (hit : Z * Z -> bool) (l : list (Z * Z)) : option ((Z * Z) * list (Z * Z)) :=
  match l with
  | [] => None
  | b :: l' => if hit b then Some (b, l') else
               match take_first hit l' with Some (x, r) => Some (x, b :: r) | None => None end
  end.
(** wolfip.c:3302-3352 tcp_rebuild_rx_sack *)
Definition rebuild_sack (ooo : list slot) (trig_seq trig_len : Z) : list (Z * Z) :=
  let l := firstn 4 (rev (merge_blocks tcp_seq_lt tcp_seq_leq (ooo_blocks ooo))) in
  if trig_len =? 0 then l else
  match take_first (fun b => tcp_seq_leq (fst b) trig_seq && tcp_seq_lt trig_seq (snd b)) l with
  | Some (b, r) => b :: r
  | None => l
  end.

(** wolfip.c:3379-3406: coalesce with slot [s] when the ranges overlap and the union
    fits.  [None] = out-of-bounds access; [Some None] = not coalesced. *)
Definition coalesce (s : slot) (data : list Z) (seq : Z) : option (option slot) :=
  let len := zlen data in
  let end_new := tcp_seq_inc seq len in
  let end_cur := tcp_seq_inc (o_seq s) (o_len s) in
  if tcp_seq_lt seq end_cur && tcp_seq_lt (o_seq s) end_new then
    let u_start := if tcp_seq_lt seq (o_seq s) then seq else o_seq s in
    let u_end := if tcp_seq_lt end_cur end_new then end_new else end_cur in
    let u_len := u32 (tcp_seq_diff u_end u_start) in
    if u_len <=? MSS_MAX then
      let cur_off := u32 (tcp_seq_diff (o_seq s) u_start) in
      let new_off := u32 (tcp_seq_diff seq u_start) in
      do buf <- (if negb (cur_off =? 0) then do old <- mread (o_data s) 0 (o_len s); mwrite (o_data s) cur_off old
                 else Some (o_data s));
      do buf <- mwrite buf new_off data;
      Some (Some (mkSlot true u_start u_len buf))
    else Some None
  else Some None.

(** wolfip.c:3370-3408: scan of the slots.  Result: the slot to coalesce into with its
    new contents, or the first free slot. *)
Inductive scan_res := Coalesced (i : nat) (s : slot) | Free (i : option nat).
Fixpoint store_scan (l : list slot) (i : nat) (free : option nat) (data : list Z) (seq : Z) : option scan_res :=
  match l with
  | [] => Some (Free free)
  | s :: l' =>
      if negb (o_used s) then store_scan l' (S i) (match free with None => Some i | _ => free end) data seq
      else do c <- coalesce s data seq;
           match c with
           | Some s' => Some (Coalesced i s')
           | None => store_scan l' (S i) free data seq
           end
  end.
(** wolfip.c:3354-3417 tcp_store_ooo_segment *)
Definition tcp_store_ooo (st : rxs) (data : list Z) (seq : Z) : option rxs :=
  let len := zlen data in
  if (len =? 0) || (MSS_MAX <? len) then Some st else
  do r <- store_scan (rx_ooo st) 0 None data seq;
  match r with
  | Coalesced i s' =>
      let ooo := set_nth i s' (rx_ooo st) in
      Some (mkRx (rx_q st) (rx_ack st) ooo (rebuild_sack ooo (o_seq s') (o_len s')))
  | Free None => Some st
  | Free (Some i) =>
      do old <- nth_error (rx_ooo st) i;
      do buf <- mwrite (o_data old) 0 data;
      let ooo := set_nth i (mkSlot true seq len buf) (rx_ooo st) in
      Some (mkRx (rx_q st) (rx_ack st) ooo (rebuild_sack ooo seq len))
  end.

(** wolfip.c:3433-3477: one turn of the outer loop: the first slot that makes progress.
    [Some None] = no progress. *)
Fixpoint consume_scan (q : queue) (ack : Z) (l : list slot) : option (option (queue * Z * list slot)) :=
  match l with
  | [] => Some None
  | s :: l' =>
      let next := do r <- consume_scan q ack l';
                  Some (match r with Some (q', a', l'') => Some (q', a', s :: l'') | None => None end) in
      if negb (o_used s) then next
      else if tcp_seq_lt (o_seq s) ack then
        let seg_end := tcp_seq_inc (o_seq s) (o_len s) in
        if tcp_seq_leq seg_end ack then Some (Some (q, ack, mkSlot false (o_seq s) 0 (o_data s) :: l'))
        else
          let trim := u32 (tcp_seq_diff ack (o_seq s)) in
          do tl <- mread (o_data s) trim (u32 (o_len s - trim));
          do buf <- mwrite (o_data s) 0 tl;
          Some (Some (q, ack, mkSlot true ack (u32 (o_len s - trim)) buf :: l'))
      else if o_seq s =? ack then
        do d <- mread (o_data s) 0 (o_len s);
        do (q', r) <- queue_insert q d (o_seq s);
        if r =? 0 then Some (Some (q', tcp_seq_inc ack (o_len s), mkSlot false (o_seq s) 0 (o_data s) :: l'))
        else next
      else next
  end.
(** The outer loop; running out of fuel is [None] (the theorems show it never does). *)
Fixpoint consume_loop (fuel : nat) (q : queue) (ack : Z) (l : list slot) : option (queue * Z * list slot) :=
  match fuel with
  | O => None
  | S f => do r <- consume_scan q ack l;
           match r with None => Some (q, ack, l) | Some (q', a', l') => consume_loop f q' a' l' end
  end.
(** wolfip.c:3419-3483 tcp_consume_ooo *)
Definition tcp_consume_ooo (st : rxs) : option rxs :=
  do (qa, l) <- consume_loop 40 (rx_q st) (rx_ack st) (rx_ooo st);
  Some (mkRx (fst qa) (snd qa) l (rebuild_sack l 0 0)).

(** What an ACK segment says. *)
Definition ack_of (st : rxs) : Z * list (Z * Z) := (rx_ack st, rx_sack st).

(** wolfip.c:4302-4347 tcp_recv; the list is the ACKs sent. *)
Definition tcp_recv (st : rxs) (seq : Z) (payload : list Z) : option (rxs * list (Z * list (Z * Z))) :=
  let seg_len := zlen payload in
  if seg_len =? 0 then Some (st, []) else
  let consumed := if tcp_seq_lt seq (rx_ack st) then u32 (tcp_seq_diff (rx_ack st) seq) else 0 in
  if (tcp_seq_lt seq (rx_ack st)) && (seg_len <=? consumed) then Some (st, [ack_of st]) else
  let seq := if tcp_seq_lt seq (rx_ack st) then tcp_seq_inc seq consumed else seq in
  do payload <- mread payload consumed (seg_len - consumed);
  if seq =? rx_ack st then
    do (q, r) <- queue_insert (rx_q st) payload seq;
    if r <? 0 then let st' := mkRx q (rx_ack st) (rx_ooo st) (rx_sack st) in Some (st', [ack_of st'])
    else do st' <- tcp_consume_ooo (mkRx q (tcp_seq_inc seq (zlen payload)) (rx_ooo st) (rx_sack st));
         Some (st', [ack_of st'])
  else if tcp_seq_lt (rx_ack st) seq then
    do st' <- tcp_store_ooo st payload seq;
    Some (st', [ack_of st'])
  else Some (st, []).

(** wolfip.c:5768-5835: a segment in a data-transfer state. *)
Definition seg_input (st : rxs) (seq : Z) (payload : list Z) (fin : bool) : option (rxs * list (Z * list (Z * Z))) :=
  let tcplen := zlen payload in
  if negb (tcp_segment_acceptable (rx_ack st) (queue_space (rx_q st)) seq (tcplen + (if fin then 1 else 0)))
  then Some (st, [ack_of st])
  else
    do (st1, acks) <- (if 0 <? tcplen then tcp_recv st seq payload else Some (st, []));
    if fin then
      let fin_seq_end := tcp_seq_inc seq tcplen in
      if ((tcplen =? 0) && negb (rx_ack st1 =? seq)) || ((0 <? tcplen) && negb (rx_ack st1 =? fin_seq_end))
      then Some (st1, acks ++ [ack_of st1])
      else
        let st2 := mkRx (rx_q st1) (if 0 <? tcplen then tcp_seq_inc fin_seq_end 1 else tcp_seq_inc seq 1) (rx_ooo st1) (rx_sack st1) in
        Some (st2, acks ++ [ack_of st2])
    else Some (st1, acks).

(** wolfip.c:7043-7080 recv on a connected stream: the bytes, and possibly a window
    update. *)
Definition sock_recv (st : rxs) (shift len : Z) : option (rxs * (list Z * list (Z * list (Z * Z)))) :=
  let win_before := tcp_adv_win (queue_space (rx_q st)) shift in
  do (q, r) <- queue_pop (rx_q st) len;
  let st' := mkRx q (rx_ack st) (rx_ooo st) (rx_sack st) in
  let win_after := tcp_adv_win (queue_space q) shift in
  Some (st', (fst r, if (0 <? snd r) && (win_before <? win_after) then [ack_of st'] else [])).
