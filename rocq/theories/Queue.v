(** Model of the TCP receive ring.  Source: /repo/src/wolfip.c:552-673. *)
From Verif Require Import Base Seq.

(** struct queue, wolfip.c:552-555. *)
Record queue := { q_base : Z; q_head : Z; q_tail : Z; q_size : Z; q_data : list Z }.

(** queue_init, wolfip.c:561-568. *)
Definition queue_init (data : list Z) (size seq_base : Z) : queue :=
  {| q_base := seq_base; q_head := 0; q_tail := 0; q_size := size; q_data := data |}.
(** queue_space, wolfip.c:571-578. *)
Definition queue_space (q : queue) : Z :=
  if q_size q <=? 1 then 0
  else if q_tail q <=? q_head q then u32 (u32 (q_size q - u32 (q_head q - q_tail q)) - 1)
  else u32 (u32 (q_tail q - q_head q) - 1).
(** queue_len, wolfip.c:581-586. *)
Definition queue_len (q : queue) : Z :=
  if q_size q <=? 1 then 0 else u32 (u32 (q_size q - 1) - queue_space q).

(** queue_insert, wolfip.c:605-650.  Outer [None] = out-of-bounds memcpy. *)
Definition queue_insert (q : queue) (data : list Z) (seq : Z) : option (queue * Z) :=
  let len := zlen data in
  if q_size q <=? 1 then Some (q, -1) else
  if q_size q - 1 <? len then Some (q, -1) else
  if queue_space q <? len then Some (q, -1) else
  let q_len := queue_len q in
  if q_len =? 0 then
    do m <- mwrite (q_data q) 0 data;
    Some ({| q_base := seq; q_head := len; q_tail := 0; q_size := q_size q; q_data := m |}, 0)
  else
    let rel := tcp_seq_diff seq (q_base q) in
    if rel <? 0 then Some (q, -1) else
    if u32 rel <? q_len then Some (q, 0) else
    if q_len <? u32 rel then Some (q, -1) else
    do m <- (if q_size q <? u32 (q_head q + len) then
               let first_chunk := q_size q - q_head q in
               do a <- mread data 0 first_chunk;
               do b <- mread data first_chunk (len - first_chunk);
               do m1 <- mwrite (q_data q) (q_head q) a;
               mwrite m1 0 b
             else mwrite (q_data q) (q_head q) data);
    Some ({| q_base := q_base q; q_head := u32 (q_head q + len) mod q_size q; q_tail := q_tail q;
             q_size := q_size q; q_data := m |}, 0).

Definition EAGAIN : Z := 11. (* wolfip.h:150-155 *)

(** queue_pop, wolfip.c:653-673.  Returns the bytes copied to the caller and
    the C result. *)
Definition queue_pop (q : queue) (len : Z) : option (queue * (list Z * Z)) :=
  let q_len := queue_len q in
  if q_len =? 0 then Some (q, ([], - EAGAIN)) else
  let len := if q_len <? len then q_len else len in
  do bs <- (if q_size q <? u32 (q_tail q + len) then
              let first_chunk := q_size q - q_tail q in
              do a <- mread (q_data q) (q_tail q) first_chunk;
              do b <- mread (q_data q) 0 (len - first_chunk);
              Some (a ++ b)
            else mread (q_data q) (q_tail q) len);
  Some ({| q_base := u32 (q_base q + len); q_head := q_head q; q_tail := u32 (q_tail q + len) mod q_size q;
           q_size := q_size q; q_data := q_data q |}, (bs, len)).
