(** Model of the timer binary heap.  Source: /repo/src/wolfip.c:1408-1434 and
    2508-2628.  The array timers[MAX_TIMERS] together with [size] is a list of
    length [size]; slots at or beyond [size] are never read by the code before
    being written. *)
From Verif Require Import Base.

(** struct wolfIP_timer, wolfip.c:1413-1419: callback and argument are one
    opaque [t_arg].  [expires] is uint64_t. *)
Record timer := { t_id : Z; t_exp : Z; t_arg : Z }.
Definition t0 : timer := {| t_id := 0; t_exp := 0; t_arg := 0 |}.

Definition tget (l : list timer) (i : nat) : timer := nth i l t0.
Definition tset (l : list timer) (i : nat) (x : timer) : list timer :=
  firstn i l ++ match skipn i l with [] => [] | _ :: t => x :: t end.
Definition tswap (l : list timer) (i j : nat) : list timer :=
  tset (tset l i (tget l j)) j (tget l i).

(** The sift-down loop of timers_binheap_pop (wolfip.c:2519-2532) and of
    timers_heapify (2581-2593), which are textually the same loop.  The
    position where it stops is returned too.  Fuel: the index strictly
    increases, so [length l] iterations suffice. *)
Fixpoint sift_down (fuel : nat) (l : list timer) (i : nat) : list timer * nat :=
  match fuel with
  | O => (l, i)
  | S fuel =>
    if (2 * i + 1 <? length l)%nat then
      let j := (2 * i + 1)%nat in
      let j := if (j + 1 <? length l)%nat && (t_exp (tget l (j + 1)) <? t_exp (tget l j)) then (j + 1)%nat else j in
      if t_exp (tget l i) <=? t_exp (tget l j) then (l, i)
      else sift_down fuel (tswap l i j) j
    else (l, i)
  end.

(** The sift-up loop of timers_binheap_insert (2551-2556) and timers_heapify (2595-2604). *)
Fixpoint sift_up (fuel : nat) (l : list timer) (i : nat) : list timer :=
  match fuel with
  | O => l
  | S fuel =>
    match i with
    | O => l
    | S _ =>
      let p := ((i - 1) / 2)%nat in
      if t_exp (tget l i) <? t_exp (tget l p) then sift_up fuel (tswap l i p) p else l
    end
  end.

(** timers_binheap_pop, wolfip.c:2512-2534.  Callers test size > 0. *)
Definition timers_binheap_pop (l : list timer) : list timer * timer :=
  let tmr := tget l 0 in
  let last := tget l (length l - 1) in
  let l' := tset (removelast l) 0 last in
  (fst (sift_down (length l') l' 0), tmr).

(** while (heap->size > 0 && heap->timers[0].expires == 0) pop, wolfip.c:2542-2543, 2562-2564. *)
Fixpoint drain (fuel : nat) (l : list timer) : list timer :=
  match fuel with
  | O => l
  | S fuel =>
    match l with
    | [] => l
    | _ => if t_exp (tget l 0) =? 0 then drain fuel (fst (timers_binheap_pop l)) else l
    end
  end.

(** timers_binheap_insert, wolfip.c:2536-2558.  [cnt] is the static counter
    timer_id, [maxt] is MAX_TIMERS. *)
Definition timers_binheap_insert (maxt : nat) (l : list timer) (cnt exp arg : Z)
  : (list timer * Z) * Z :=
  let cnt := if cnt =? 0 then 1 else cnt in
  let l := drain (length l) l in
  if (maxt <=? length l)%nat then ((l, cnt), 0)
  else
    let tmr := {| t_id := cnt; t_exp := exp; t_arg := arg |} in
    let l := l ++ [tmr] in
    ((sift_up (length l) l (length l - 1), u32 (cnt + 1)), cnt).

(** is_timer_expired, wolfip.c:2560-2569. *)
Definition is_timer_expired (l : list timer) (now : Z) : list timer * bool :=
  let l := drain (length l) l in
  match l with
  | [] => (l, false)
  | _ => (l, t_exp (tget l 0) <=? now)
  end.

(** timers_heapify, wolfip.c:2575-2605. *)
Definition timers_heapify (l : list timer) (i : nat) : list timer :=
  if (length l <=? i)%nat then l else
  let '(l, i) := sift_down (length l) l i in
  sift_up (S i) l i.

(** timer_binheap_cancel, wolfip.c:2607-2628. *)
Fixpoint find_id (l : list timer) (id : Z) (i : nat) : option nat :=
  match l with
  | [] => None
  | x :: l => if t_id x =? id then Some i else find_id l id (S i)
  end.
Definition timer_binheap_cancel (l : list timer) (id : Z) : list timer :=
  match find_id l id 0 with
  | None => l
  | Some i =>
      let last := tget l (length l - 1) in
      timers_heapify (removelast (tset l i last)) i
  end.

(** One turn of the dispatch loop of wolfIP_poll (wolfip.c:11197-11198):
    if (is_timer_expired(now)) tmr = pop(). *)
Definition timer_due (l : list timer) (now : Z) : list timer * option timer :=
  let '(l, b) := is_timer_expired l now in
  if b then let '(l, t) := timers_binheap_pop l in (l, Some t) else (l, None).
