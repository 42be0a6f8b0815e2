(** Interface MTU, TCP segment sizing, datagram size limits.
    Source: /repo/src/wolfip.c:1534-1617 (helpers), 10063-10088 (wolfIP_mtu_set/get),
    2914-2928 (ICMP fragmentation needed), 6657-6671 (TCP send sizing),
    6760-6764 and 6825-6829 (UDP / ICMP send limits), 1726-1786 (frame transmission).
    LINK_MTU 1536, LINK_MTU_MIN 64, ETH_HEADER_LEN 14, IP_MTU_MAX 1500, IP and TCP
    headers 20, TCP_OPTIONS_LEN 12, TCP_DEFAULT_MSS 536, WOLFIP_VLAN_TAG_LEN 4. *)
From Verif Require Import Base Fifo.

(** A link device: physical with its [mtu] field, or a live VLAN sub-interface. *)
Inductive lldev := Phys (mtu : Z) | VlanOn (parent : lldev).

(** wolfip.c:1535-1556 wolfIP_ll_frame_mtu *)
Fixpoint ll_frame_mtu (d : lldev) : Z :=
  match d with
  | VlanOn p => let pm := ll_frame_mtu p in if 4 <? pm then pm - 4 else 0
  | Phys m => if m =? 0 then 1536 else
              let m := if 1536 <? m then 1536 else m in if m <? 64 then 64 else m
  end.
(** wolfip.c:10063-10079 wolfIP_mtu_set on a physical device: the new field *)
Definition mtu_set (m : Z) : Z :=
  if m =? 0 then 1536 else if m <? 64 then 64 else if 1536 <? m then 1536 else m.
(** wolfip.c:1564-1576 wolfIP_ip_mtu *)
Definition ip_mtu (d : lldev) : Z :=
  let m := ll_frame_mtu d in
  if m <=? 14 then 0 else let m := m - 14 in if 1500 <? m then 1500 else m.
(** wolfip.c:1585-1592 wolfIP_socket_tcp_mss *)
Definition tcp_mss (d : lldev) : Z := let m := ip_mtu d in if m <=? 40 then 0 else m - 40.
(** wolfip.c:1603-1618 tcp_tx_payload_cap *)
Definition tcp_tx_payload_cap (d : lldev) (peer_mss : Z) : Z :=
  let cap := tcp_mss d in
  let cap := if 12 <? cap then cap - 12 else 0 in
  if (0 <? peer_mss) && (peer_mss <? cap) then peer_mss else cap.
(** wolfip.c:6657-6671: payload of the next segment of a send call with [left]
    bytes to go; [f] is the socket's transmit buffer, sizeof(struct wolfIP_tcp_seg)
    = 54.  0 means no segment is produced. *)
Definition tcp_next_payload (d : lldev) (peer_mss : Z) (ts_enabled : bool) (f : fifo) (left : Z) : Z :=
  let opt_len := if ts_enabled then 12 else 0 in
  let tx_cap := tcp_tx_payload_cap d peer_mss in
  let payload_cap := if tx_cap <? left then tx_cap else left in
  let payload_len := fifo_max_push_payload f (54 + opt_len) payload_cap in
  if payload_len =? 0 then 0 else if tx_cap <? payload_len then tx_cap else payload_len.
(** IP total length of that segment (IP + TCP headers, options, payload). *)
Definition tcp_ip_len (ts_enabled : bool) (payload : Z) : Z := 40 + (if ts_enabled then 12 else 0) + payload.

(** wolfip.c:2914-2928: peer_mss after an accepted ICMP "fragmentation needed". *)
Definition ptb_update (peer_mss next_hop_mtu : Z) : Z :=
  if 576 <=? next_hop_mtu then
    let new_mss := u16 (next_hop_mtu - 40) in
    if (peer_mss =? 0) || (new_mss <? peer_mss) then new_mss else peer_mss
  else peer_mss.

(** wolfip.c:6760-6764: is a UDP payload of [len] bytes accepted? *)
Definition udp_len_ok (d : lldev) (len : Z) : bool :=
  negb ((ip_mtu d <=? 28) || (ip_mtu d - 20 - 8 <? len)).
(** wolfip.c:6825-6829 *)
Definition icmp_len_ok (d : lldev) (len : Z) : bool :=
  negb ((ip_mtu d <=? 20) || (len <? 8) || (ip_mtu d - 20 <? len)).
