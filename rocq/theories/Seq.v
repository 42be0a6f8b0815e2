(** TCP sequence number arithmetic and segment acceptability.
    Source: /repo/src/wolfip.c. *)
From Verif Require Import Base.

(** tcp_seq_diff, wolfip.c:598-601. *)
Definition tcp_seq_diff (a b : Z) : Z := s32 (u32 (a - b)).
(** tcp_seq_inc, wolfip.c:4294-4299 (UINT32_MAX = 4294967295). *)
Definition tcp_seq_inc (seq n : Z) : Z :=
  if 4294967295 - seq <? n then u32 (n - (4294967295 - seq) - 1) else u32 (seq + n).
(** tcp_seq_leq, wolfip.c:4940-4946. *)
Definition tcp_seq_leq (a b : Z) : bool :=
  if a <=? b then (b - a) <=? 2147483648 else 2147483648 <=? (a - b).
(** tcp_seq_lt, wolfip.c:4948-4951. *)
Definition tcp_seq_lt (a b : Z) : bool := negb (a =? b) && tcp_seq_leq a b.

(** tcp_segment_acceptable, wolfip.c:3136-3162.  [rcv_wnd] is
    queue_space(rxbuf); [seg_len] already includes the SYN and FIN flags as in
    lines 3142-3144. *)
Definition tcp_segment_acceptable (rcv_nxt rcv_wnd seg_seq seg_len : Z) : bool :=
  if seg_len =? 0 then
    if rcv_wnd =? 0 then seg_seq =? rcv_nxt
    else tcp_seq_leq rcv_nxt seg_seq && tcp_seq_lt seg_seq (tcp_seq_inc rcv_nxt rcv_wnd)
  else if rcv_wnd =? 0 then false
  else (tcp_seq_leq rcv_nxt seg_seq && tcp_seq_lt seg_seq (tcp_seq_inc rcv_nxt rcv_wnd)) ||
       (tcp_seq_leq rcv_nxt (tcp_seq_inc seg_seq (u32 (seg_len - 1))) &&
        tcp_seq_lt (tcp_seq_inc seg_seq (u32 (seg_len - 1))) (tcp_seq_inc rcv_nxt rcv_wnd)).

(** tcp_adv_win, wolfip.c:3126-3134; [space] = queue_space, [shift] the scale in force. *)
Definition tcp_adv_win (space shift : Z) : Z :=
  let win := Z.shiftr space shift in if 65535 <? win then 65535 else win.
