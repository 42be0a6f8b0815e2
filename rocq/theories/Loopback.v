(** The loopback device queue.  Source: /repo/src/wolfip.c:1497-1501 (fields),
    1658-1680 (wolfIP_loopback_send), 1682-1707 (wolfIP_loopback_poll).
    WOLFIP_LOOPBACK_QUEUE_DEPTH 4, IP_MTU_MAX 1500, WOLFIP_EAGAIN 11.  [None] is an
    out-of-bounds access.  The wake-up of writable sockets (1622-1656) is left out. *)
From Verif Require Import Base ListUtil.

Record lbq := mkLb { lb_buf : list (list Z); lb_len : list Z; lb_head : Z; lb_tail : Z; lb_count : Z }.
(** The structure is zero-initialised (wolfip.c:9852 memset in wolfIP_init). *)
Definition lb_init : lbq := mkLb (repeat (repeat 0 (Z.to_nat 1500)) 4) (repeat 0 4) 0 0 0.

(** wolfip.c:1658-1680 *)
Definition loopback_send (s : lbq) (pkt : list Z) : option (lbq * Z) :=
  let len := zlen pkt in
  if (len =? 0) || (1500 <? len) then Some (s, 0) else
  if 4 <=? lb_count s then Some (s, -11) else
  let slot := Z.to_nat (lb_tail s) in
  do b <- nth_error (lb_buf s) slot;
  do b' <- mwrite b 0 pkt;
  Some (mkLb (set_nth slot b' (lb_buf s)) (set_nth slot len (lb_len s)) (lb_head s)
             (u32 (lb_tail s + 1) mod 4) (u32 (lb_count s + 1)), len).

(** wolfip.c:1682-1707; [cap] is the size of the caller's buffer.  The result is
    the bytes stored there; no bytes is the return value 0. *)
Definition loopback_poll (s : lbq) (cap : Z) : option (lbq * list Z) :=
  if lb_count s =? 0 then Some (s, []) else
  let slot := Z.to_nat (lb_head s) in
  do pending <- nth_error (lb_len s) slot;
  if cap <? pending then Some (s, []) else
  do b <- nth_error (lb_buf s) slot;
  do bs <- mread b 0 pending;
  Some (mkLb (lb_buf s) (set_nth slot 0 (lb_len s)) (u32 (lb_head s + 1) mod 4) (lb_tail s) (u32 (lb_count s - 1)), bs).
