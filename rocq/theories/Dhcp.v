(** Model of the DHCP client: src/wolfip.c:8327-8592 (timers), 8789-9143 (replies),
    9146-9456 (requests, init, decline, address conflict), and the hook in arp_recv
    (9793-9797).

    Simplifications: ticks are unbounded integers (they are uint64_t milliseconds); the
    timer heap is the list of this client's pending timers, each with its id; sending a
    datagram, sending an ARP probe, opening the socket and finding room in the timer heap
    either succeed or fail as the environment of each event decides; the interface driver
    is present (wolfIP_ll_at and wolfIP_primary_ipconf return non-NULL); logging is omitted. *)
From Verif Require Import Base HttpUrl Arp DhcpOpt.

(* 1142-1151 enum dhcp_state *)
Inductive dst := OFF | DISCOVER_SENT | REQUEST_SENT | BOUND | RENEWING | REBINDING | DAD.
Definition dst_eqb (a b : dst) : bool :=
  match a, b with
  | OFF, OFF | DISCOVER_SENT, DISCOVER_SENT | REQUEST_SENT, REQUEST_SENT | BOUND, BOUND
  | RENEWING, RENEWING | REBINDING, REBINDING | DAD, DAD => true
  | _, _ => false
  end.

(** The fields of struct wolfIP used by the client (1441-1453), plus the primary
    interface's configuration, its MAC, the DNS server, the clock and the timers. *)
Record dh := mkD {
  d_st : dst; d_xid : Z; d_count : Z; d_probes : Z; d_server : Z; d_ip : Z; d_omask : Z;
  d_renew : Z; d_rebind : Z; d_expires : Z; d_start : Z; d_now : Z;
  d_tid : Z; d_heap : list (Z * Z); d_nid : Z;
  i_ip : Z; i_mask : Z; i_gw : Z; d_dns : Z; d_pinned : bool; d_mac : list Z }.

Definition up_st (s : dh) v := mkD v (d_xid s) (d_count s) (d_probes s) (d_server s) (d_ip s) (d_omask s) (d_renew s) (d_rebind s) (d_expires s) (d_start s) (d_now s) (d_tid s) (d_heap s) (d_nid s) (i_ip s) (i_mask s) (i_gw s) (d_dns s) (d_pinned s) (d_mac s).
Definition up_xid (s : dh) v := mkD (d_st s) v (d_count s) (d_probes s) (d_server s) (d_ip s) (d_omask s) (d_renew s) (d_rebind s) (d_expires s) (d_start s) (d_now s) (d_tid s) (d_heap s) (d_nid s) (i_ip s) (i_mask s) (i_gw s) (d_dns s) (d_pinned s) (d_mac s).
Definition up_count (s : dh) v := mkD (d_st s) (d_xid s) v (d_probes s) (d_server s) (d_ip s) (d_omask s) (d_renew s) (d_rebind s) (d_expires s) (d_start s) (d_now s) (d_tid s) (d_heap s) (d_nid s) (i_ip s) (i_mask s) (i_gw s) (d_dns s) (d_pinned s) (d_mac s).
Definition up_probes (s : dh) v := mkD (d_st s) (d_xid s) (d_count s) v (d_server s) (d_ip s) (d_omask s) (d_renew s) (d_rebind s) (d_expires s) (d_start s) (d_now s) (d_tid s) (d_heap s) (d_nid s) (i_ip s) (i_mask s) (i_gw s) (d_dns s) (d_pinned s) (d_mac s).
Definition up_server (s : dh) v := mkD (d_st s) (d_xid s) (d_count s) (d_probes s) v (d_ip s) (d_omask s) (d_renew s) (d_rebind s) (d_expires s) (d_start s) (d_now s) (d_tid s) (d_heap s) (d_nid s) (i_ip s) (i_mask s) (i_gw s) (d_dns s) (d_pinned s) (d_mac s).
Definition up_ip (s : dh) v w := mkD (d_st s) (d_xid s) (d_count s) (d_probes s) (d_server s) v w (d_renew s) (d_rebind s) (d_expires s) (d_start s) (d_now s) (d_tid s) (d_heap s) (d_nid s) (i_ip s) (i_mask s) (i_gw s) (d_dns s) (d_pinned s) (d_mac s).
Definition up_lease (s : dh) a b c := mkD (d_st s) (d_xid s) (d_count s) (d_probes s) (d_server s) (d_ip s) (d_omask s) a b c (d_start s) (d_now s) (d_tid s) (d_heap s) (d_nid s) (i_ip s) (i_mask s) (i_gw s) (d_dns s) (d_pinned s) (d_mac s).
Definition up_start (s : dh) v := mkD (d_st s) (d_xid s) (d_count s) (d_probes s) (d_server s) (d_ip s) (d_omask s) (d_renew s) (d_rebind s) (d_expires s) v (d_now s) (d_tid s) (d_heap s) (d_nid s) (i_ip s) (i_mask s) (i_gw s) (d_dns s) (d_pinned s) (d_mac s).
Definition up_now (s : dh) v := mkD (d_st s) (d_xid s) (d_count s) (d_probes s) (d_server s) (d_ip s) (d_omask s) (d_renew s) (d_rebind s) (d_expires s) (d_start s) v (d_tid s) (d_heap s) (d_nid s) (i_ip s) (i_mask s) (i_gw s) (d_dns s) (d_pinned s) (d_mac s).
Definition up_timer (s : dh) t h n := mkD (d_st s) (d_xid s) (d_count s) (d_probes s) (d_server s) (d_ip s) (d_omask s) (d_renew s) (d_rebind s) (d_expires s) (d_start s) (d_now s) t h n (i_ip s) (i_mask s) (i_gw s) (d_dns s) (d_pinned s) (d_mac s).
Definition up_conf (s : dh) a b c d := mkD (d_st s) (d_xid s) (d_count s) (d_probes s) (d_server s) (d_ip s) (d_omask s) (d_renew s) (d_rebind s) (d_expires s) (d_start s) (d_now s) (d_tid s) (d_heap s) (d_nid s) a b c d (d_pinned s) (d_mac s).

(** What the outside world decides during one event. *)
Record env := mkE { e_xid : Z; e_rnd : Z; e_send : bool; e_probe : bool; e_room : bool; e_sock : bool }.
(** Messages handed to the UDP socket: destination and payload; ARP probes. *)
Inductive out := Udp (dst : Z) (payload : list Z) | Probe (ip : Z).

(** 8327-8337 dhcp_schedule_timer_at *)
Definition schedule_at (e : env) (s : dh) (t : Z) : dh :=
  let ex := if d_now s <? t then t else d_now s + 1 in
  if e_room e then up_timer s (d_nid s) (d_heap s ++ [(d_nid s, ex)]) (d_nid s + 1)
  else up_timer s 0 (d_heap s) (d_nid s).
(** timer_binheap_cancel *)
Definition heap_cancel (h : list (Z * Z)) (id : Z) : list (Z * Z) := filter (fun p => negb (fst p =? id)) h.

(** 8344-8356 dhcp_backoff_delay *)
Definition backoff_delay (s : dh) (base : Z) : Z :=
  let c := if 16 <? d_count s then 16 else d_count s in
  let d := Z.shiftl base c in if 64000 <? d then 64000 else d.
(** 8361-8370 dhcp_discover_retry_delay *)
Definition discover_delay (e : env) (s : dh) : Z :=
  let b := backoff_delay s 4000 in
  (if 1000 <? b then b - 1000 else 0) + e_rnd e mod 2001.
(** 8372-8383 dhcp_schedule_retry_timer, deadline 0 *)
Definition schedule_retry (e : env) (s : dh) : dh :=
  schedule_at e s (d_now s + backoff_delay s 2000 + e_rnd e mod 200).
(** 8390-8399 dhcp_renew_rebind_delay_ms *)
Definition renew_delay (r : Z) : Z :=
  let d := r / 2 in
  let d := if d <? 60000 then 60000 else d in
  let d := if r <? d then r else d in
  if d =? 0 then 1 else d.
(** 8401-8410 dhcp_schedule_renew_rebind_retry *)
Definition schedule_rr (e : env) (s : dh) (deadline : Z) : dh :=
  if deadline =? 0 then s
  else
    let r := if d_now s <? deadline then deadline - d_now s else 0 in
    schedule_at e s (d_now s + renew_delay r).
(** 8412-8428 dhcp_elapsed_secs *)
Definition elapsed (s : dh) : Z :=
  let ms := if d_start s <=? d_now s then d_now s - d_start s else d_now s in
  let x := ms / 1000 in if 65535 <? x then 65535 else x.
(** 8430-8466 dhcp_schedule_lease_timer *)
Definition lease_times (l r b : Z) : Z * Z :=
  let '(r, b) := if (r =? 0) || (b =? 0) || (l <=? r) || (l <=? b) || (b <=? r)
                 then (l / 2, l * 7 / 8) else (r, b) in
  let r := if r =? 0 then 1 else r in
  let b := if b <=? r then r + 1 else b in
  let b := if l <? b then l else b in
  (r, b).
Definition schedule_lease (e : env) (s : dh) (l r b : Z) : dh :=
  if l =? 0 then s
  else
    let '(r, b) := lease_times l r b in
    let s := up_lease s (d_now s + r * 1000) (d_now s + b * 1000) (d_now s + l * 1000) in
    schedule_at e s (d_renew s).
(** 8573-8583 dhcp_cancel_timer *)
Definition cancel_timer (s : dh) : dh :=
  let s := up_count s 0 in
  let s := if d_tid s =? 0 then s else up_timer s 0 (heap_cancel (d_heap s) (d_tid s)) (d_nid s) in
  up_lease s 0 0 0.
(** 8585-8592 dhcp_deconfigure_lease *)
Definition deconfigure (s : dh) : dh :=
  let s := up_conf s 0 0 0 (if d_pinned s then d_dns s else 0) in
  up_server (up_ip s 0 (d_omask s)) 0.

(** 9165-9224, 9277-9318, 9397-9437: the packed request, 240 bytes of header and the
    options written so far with their END *)
Definition bootp (s : dh) (flags ciaddr : Z) (opts : list Z) : list Z :=
  [1; 1; 6; 0] ++ be32 (d_xid s) ++ be16 (elapsed s) ++ be16 flags ++ be32 ciaddr ++ be32 0 ++
  be32 0 ++ be32 0 ++ d_mac s ++ repeat 0 10 ++ repeat 0 64 ++ repeat 0 128 ++ [99; 130; 83; 99] ++ opts.

(** 9261-9333 dhcp_send_discover *)
Definition send_discover (e : env) (s : dh) : dh * list out * bool :=
  let s := if dst_eqb (d_st s) OFF then up_start s (d_now s) else s in
  let m := bootp s 32768 0 [53; 1; 1; 55; 3; 1; 3; 6; 255] in
  if e_send e then
    let s := schedule_at e s (d_now s + discover_delay e s) in
    (up_st s DISCOVER_SENT, [Udp 4294967295 m], true)
  else (schedule_at e (up_st s DISCOVER_SENT) (d_now s + 1), [], false).

(** 9146-9249 dhcp_send_request *)
Definition send_request (e : env) (s : dh) : dh * list out * bool :=
  let renewing := dst_eqb (d_st s) RENEWING in
  let rebinding := dst_eqb (d_st s) REBINDING in
  let old := renewing || rebinding in
  let s := if old then s else up_st s REQUEST_SENT in
  let m := bootp s (if old then 0 else 32768) (if old then i_ip s else 0)
    ([53; 1; 3; 55; 3; 1; 3; 6] ++
     (if old then [] else [54; 4] ++ be32 (d_server s) ++ [50; 4] ++ be32 (d_ip s)) ++ [255]) in
  let dst := if renewing then d_server s else 4294967295 in
  if e_send e then
    ((if renewing then schedule_rr e s (d_rebind s)
      else if rebinding then schedule_rr e s (d_expires s)
      else schedule_retry e s), [Udp dst m], true)
  else (schedule_at e s (d_now s + 1), [], false).

(** 9704-9731 dhcp_send_dad_probe *)
Definition send_probe (e : env) (s : dh) : list out * bool :=
  if (i_ip s =? 0) || negb (e_probe e) then ([], false) else ([Probe (i_ip s)], true).

Definition inc (s : dh) (ok : bool) : dh := if ok then up_count s (u32 (d_count s + 1)) else s.
(** drop the lease and start over: 8499-8503, 8537-8541, 9124-9128 *)
Definition restart (e : env) (s : dh) : dh * list out :=
  let s := up_st (deconfigure (cancel_timer s)) OFF in
  let '(s, o, _) := send_discover e s in (s, o).

(** 8468-8571 dhcp_timer_cb *)
Definition timer_cb (e : env) (s : dh) : dh * list out :=
  let s := up_timer s 0 (d_heap s) (d_nid s) in
  match d_st s with
  | DISCOVER_SENT =>
    if d_count s <? 3 then
      let '(s, o, ok) := send_discover e s in (inc s ok, o)
    else (up_st s OFF, [])
  | REQUEST_SENT =>
    if d_count s <? 3 then
      let '(s, o, ok) := send_request e s in (inc s ok, o)
    else (up_st (deconfigure s) OFF, [])
  | BOUND =>
    if negb (d_expires s =? 0) && (d_expires s <=? d_now s) then restart e s
    else if negb (d_renew s =? 0) && (d_now s <? d_renew s) then (s, [])
    else
      let s := up_xid (up_count (up_start (up_st s RENEWING) (d_now s)) 0) (e_xid e) in
      let '(s, o, ok) := send_request e s in (inc s ok, o)
  | RENEWING =>
    let s := if negb (d_rebind s =? 0) && (d_rebind s <=? d_now s)
             then up_count (up_start (up_st s REBINDING) (d_now s)) 0 else s in
    let '(s, o, ok) := send_request e s in (inc s ok, o)
  | REBINDING =>
    if negb (d_expires s =? 0) && (d_expires s <=? d_now s) then restart e s
    else let '(s, o, ok) := send_request e s in (inc s ok, o)
  | DAD =>
    if d_probes s <? 3 then
      let '(o, ok) := send_probe e s in
      if ok : bool then (schedule_at e (up_probes s (d_probes s + 1)) (d_now s + 1000), o)
      else (schedule_at e s (d_now s + 1), o)
    else (schedule_at e (up_st (up_probes s 0) BOUND) (d_renew s), [])
  | OFF => (s, [])
  end.

(** 8789-8801 dhcp_lease_ip_sane *)
Definition ip_sane (ip mask : Z) : bool :=
  if (ip =? 0) || (ip =? 4294967295) then false
  else if Z.land ip 4026531840 =? 3758096384 then false
  else if negb (mask =? 0) && (Z.lor ip mask =? 4294967295) then false
  else true.

(** DHCP_OPT_data_to_u32 (8594-8598) on the option's data *)
Definition du32 (d : list Z) : Z := rd32 d 0.
Definition m_xid (m : list Z) := rd32 m 4.
Definition m_magic_ok (m : list Z) : bool := rd32 m 236 =? 1669485411.
Definition m_yiaddr (m : list Z) := rd32 m 16.

Definition optl := list (Z * list Z).

(** The option loops below run over the options the iterator delivers, which do not depend
    on what the loop does with them; [fin] is how the iterator stopped: [Some true] END,
    [Some false] 0, [None] -1. *)

(** 8832-8862: the inner loop of dhcp_parse_offer; returns the server id as stored in
    s->dhcp_server_ip (also on failure), whether it was seen, the mask, success *)
Fixpoint offer_inner (os : optl) (sv : Z) (seen : bool) (mask : Z) : Z * bool * Z * bool :=
  match os with
  | [] => (sv, seen, mask, true)
  | (c, d) :: os =>
    if (c =? 54) then
      if zlen d <? 4 then (sv, seen, mask, false) else offer_inner os (du32 d) true mask
    else if (c =? 1) then
      if zlen d <? 4 then (sv, seen, mask, false) else offer_inner os sv seen (du32 d)
    else offer_inner os sv seen mask
  end.
(** 8818-8882: the outer loop; result: state and success *)
Fixpoint offer_outer (m : list Z) (s : dh) (os : optl) (fin : option bool) : dh * bool :=
  match os with
  | [] =>
    match fin with
    | Some true =>
      if negb (d_server s =? 0) && negb (d_ip s =? 0) then (up_st s REQUEST_SENT, true) else (s, false)
    | _ => (s, false)
    end
  | (c, d) :: os =>
    if c =? 53 then
      if negb (zlen d =? 1) then (s, false)
      else if zget d 0 =? 2 then
        let '(sv, seen, mask, ok) := offer_inner os (d_server s) false 4294967040 in
        let s := up_server s sv in
        if negb ok then (s, false)
        else match fin with
          | Some true =>
            if negb seen then (s, false)
            else if negb (ip_sane (m_yiaddr m) mask) then (s, false)
            else (up_st (cancel_timer (up_ip s (m_yiaddr m) mask)) REQUEST_SENT, true)
          | _ => (s, false)
          end
      else offer_outer m s os fin
    else offer_outer m s os fin
  end.
(** 8803-8883 dhcp_parse_offer *)
Definition parse_offer (m : list Z) (len : Z) (s : dh) : option (dh * bool) :=
  if len <? 240 then Some (s, false)
  else if negb (zget m 0 =? 2) then Some (s, false)
  else if negb (m_magic_ok m) then Some (s, false)
  else if negb (m_xid m =? d_xid s) then Some (s, false)
  else do (os, fin) <- owalk m len true; Some (offer_outer m s os fin).

(** 8909-8917: message type and server id scan *)
Fixpoint type_scan (os : optl) (ty : Z) (sv : option Z) : Z * option Z :=
  match os with
  | [] => (ty, sv)
  | (c, d) :: os =>
    if (c =? 53) && (zlen d =? 1) then type_scan os (zget d 0) sv
    else if (c =? 54) && (4 <=? zlen d) then type_scan os ty (Some (du32 d))
    else type_scan os ty sv
  end.
(** 8887-8924 dhcp_msg_type *)
Definition msg_type (m : list Z) (len : Z) (s : dh) : option Z :=
  if len <? 240 then Some (-1)
  else if negb (m_magic_ok m) then Some (-1)
  else if negb (m_xid m =? d_xid s) then Some (-1)
  else if negb (zget m 0 =? 2) then Some (-1)
  else
    do (os, _) <- owalk m len false;
    let '(ty, sv) := type_scan os (-1) None in
    if negb (d_server s =? 0) && negb (match sv with Some v => v =? d_server s | None => false end)
    then Some (-1) else Some ty.

(** 8927-8951: candidate values of dhcp_parse_ack *)
Record cand := mkC { c_server : option Z; c_ip : option Z; c_mask : option Z; c_gw : option Z;
  c_dns : Z; c_lease : Z; c_renew : Z; c_rebind : Z }.
Definition cand0 := mkC None None None None 0 0 0 0.
(** 8984-9036: one option in the inner loop; [None] is return -1 *)
Definition ack_opt (s : dh) (k : cand) (c : Z) (d : list Z) : option cand :=
  let v := du32 d in let short := zlen d <? 4 in
  if c =? 54 then
    if short then None
    else if negb (d_server s =? 0) && negb (v =? d_server s) then None
    else Some (mkC (Some v) (c_ip k) (c_mask k) (c_gw k) (c_dns k) (c_lease k) (c_renew k) (c_rebind k))
  else if c =? 50 then
    if short then None else Some (mkC (c_server k) (Some v) (c_mask k) (c_gw k) (c_dns k) (c_lease k) (c_renew k) (c_rebind k))
  else if c =? 1 then
    if short then None else Some (mkC (c_server k) (c_ip k) (Some v) (c_gw k) (c_dns k) (c_lease k) (c_renew k) (c_rebind k))
  else if c =? 3 then
    if short then None else Some (mkC (c_server k) (c_ip k) (c_mask k) (Some v) (c_dns k) (c_lease k) (c_renew k) (c_rebind k))
  else if (c =? 6) && (d_dns s =? 0) then
    if short then None
    else Some (mkC (c_server k) (c_ip k) (c_mask k) (c_gw k) (if c_dns k =? 0 then v else c_dns k) (c_lease k) (c_renew k) (c_rebind k))
  else if c =? 51 then
    if short then None else Some (mkC (c_server k) (c_ip k) (c_mask k) (c_gw k) (c_dns k) v (c_renew k) (c_rebind k))
  else if c =? 58 then
    if short then None else Some (mkC (c_server k) (c_ip k) (c_mask k) (c_gw k) (c_dns k) (c_lease k) v (c_rebind k))
  else if c =? 59 then
    if short then None else Some (mkC (c_server k) (c_ip k) (c_mask k) (c_gw k) (c_dns k) (c_lease k) (c_renew k) v)
  else Some k.
Fixpoint ack_inner (s : dh) (k : cand) (os : optl) : option cand :=
  match os with
  | [] => Some k
  | (c, d) :: os => match ack_opt s k c d with Some k => ack_inner s k os | None => None end
  end.
(** 9037-9096: commit *)
Definition ack_commit (e : env) (m : list Z) (s : dh) (k : cand) : option (dh * list out) :=
  let ip := match c_ip k with Some v => v | None => m_yiaddr m end in
  let mask := match c_mask k with Some v => v | None => if negb (i_mask s =? 0) then i_mask s else d_omask s end in
  match c_server k with
  | None => None
  | Some sv =>
    if negb (c_lease k =? 0) && negb (mask =? 0) && ip_sane ip mask then
      let s := up_server s sv in
      let s := up_conf s ip mask (match c_gw k with Some g => g | None => i_gw s end)
                 (if (d_dns s =? 0) && negb (c_dns k =? 0) then c_dns k else d_dns s) in
      let s := cancel_timer s in
      let s := up_ip s (i_ip s) (d_omask s) in
      let s := up_probes (up_st s DAD) 0 in
      let s := schedule_lease e s (c_lease k) (c_renew k) (c_rebind k) in
      let s := up_timer s 0 (heap_cancel (d_heap s) (d_tid s)) (d_nid s) in
      let '(o, ok) := send_probe e s in
      let s := if ok : bool then up_probes s 1 else s in
      Some (schedule_at e s (d_now s + 1000), o)
    else None
  end.
(** 8965-9100: the outer loop *)
Fixpoint ack_outer (e : env) (m : list Z) (s : dh) (os : optl) (fin : option bool) : option (dh * list out) :=
  match os with
  | [] => None
  | (c, d) :: os =>
    if c =? 53 then
      if negb (zlen d =? 1) then None
      else if zget d 0 =? 5 then
        match ack_inner s cand0 os with
        | Some k => match fin with Some true => ack_commit e m s k | _ => None end
        | None => None
        end
      else None
    else ack_outer e m s os fin
  end.
(** 8925-9095 dhcp_parse_ack: [Some None] is -1 *)
Definition parse_ack (e : env) (m : list Z) (len : Z) (s : dh) : option (option (dh * list out)) :=
  if len <? 240 then Some None
  else if negb (zget m 0 =? 2) then Some None
  else if negb (m_magic_ok m) then Some None
  else if negb (m_xid m =? d_xid s) then Some None
  else do (os, fin) <- owalk m len true; Some (ack_outer e m s os fin).

(** 9097-9143 dhcp_poll; [m] is the 552-byte buffer after recvfrom, [len] what it returned *)
Definition poll_msg (e : env) (m : list Z) (len : Z) (s : dh) : option (dh * list out) :=
  if negb (zget m 2 =? 6) || negb (if list_eq_dec Z.eq_dec (slice m 28 6) (d_mac s) then true else false)
  then Some (s, [])
  else
    match d_st s with
    | DISCOVER_SENT =>
      do (s, ok) <- parse_offer m len s;
      if ok : bool then let '(s, o, _) := send_request e s in Some (s, o)
      else Some (s, [])
    | REQUEST_SENT | RENEWING | REBINDING =>
      do ty <- msg_type m len s;
      if ty =? 6 then Some (restart e s)
      else
        do r <- parse_ack e m len s;
        match r with Some x => Some x | None => Some (s, []) end
    | _ => Some (s, [])
    end.

(** 9351-9381 dhcp_client_init *)
Definition client_init (e : env) (s : dh) : dh * list out :=
  if dst_eqb (d_st s) OFF then
    let s := up_xid s (e_xid e) in
    if e_sock e then let '(s, o, _) := send_discover e s in (s, o)
    else (s, [])
  else (s, []).

(** 9387-9439 dhcp_send_decline *)
Definition send_decline (e : env) (s : dh) : list out :=
  let m := bootp s 0 0 ([53; 1; 7] ++ (if d_server s =? 0 then [] else [54; 4] ++ be32 (d_server s)) ++
                        [50; 4] ++ be32 (d_ip s) ++ [255]) in
  if e_send e then [Udp 4294967295 m] else [].
(** 9444-9455 dhcp_dad_conflict *)
Definition dad_conflict (e : env) (s : dh) : dh * list out :=
  let o1 := send_decline e s in
  let s := deconfigure (cancel_timer (up_probes s 0)) in
  let s := up_count (up_st s OFF) 0 in
  let '(s, o, _) := send_discover e s in (s, o1 ++ o).
(** 9789-9797: the hook for an ARP reply received on an interface whose address is [cip] *)
Definition arp_reply (e : env) (s : dh) (cip sip : Z) (sma : list Z) : dh * list out :=
  if dst_eqb (d_st s) DAD && (sip =? cip) then
    if list_eq_dec Z.eq_dec sma (d_mac s) then (s, []) else dad_conflict e s
  else (s, []).

(** dhcp_bound (9335-9342), DHCP_IS_RUNNING (1152) *)
Definition bound (s : dh) : bool := match d_st s with BOUND | RENEWING | REBINDING => true | _ => false end.

(** Events: the application calls dhcp_client_init; a reply is read from the socket; the
    stack is polled at a time (wolfIP_poll sets last_tick and fires the timers due, each
    once: a timer set while firing expires later than last_tick); an ARP reply arrives on
    the primary interface, or on another one whose address is [cip]. *)
Inductive event := EInit | EMsg (m : list Z) (len : Z) | EPoll (now : Z) | EArp (sip : Z) (sma : list Z)
  | EArpOther (cip sip : Z) (sma : list Z).

Definition due (now : Z) (h : list (Z * Z)) : list (Z * Z) := filter (fun p => snd p <=? now) h.
Fixpoint fire (e : env) (s : dh) (l : list (Z * Z)) : dh * list out :=
  match l with
  | [] => (s, [])
  | p :: l =>
    let s := up_timer s (d_tid s) (heap_cancel (d_heap s) (fst p)) (d_nid s) in
    let '(s, o1) := timer_cb e s in
    let '(s, o2) := fire e s l in (s, o1 ++ o2)
  end.

Definition step (e : env) (s : dh) (ev : event) : option (dh * list out) :=
  match ev with
  | EInit => Some (client_init e s)
  | EMsg m len => poll_msg e m len s
  | EPoll now => let s := up_now s now in Some (fire e s (due now (d_heap s)))
  | EArp sip sma => Some (arp_reply e s (i_ip s) sip sma)
  | EArpOther cip sip sma => Some (arp_reply e s cip sip sma)
  end.

(** the state after wolfIP_init, with the interface configured statically or not *)
Definition dinit (now ip mask gw dns : Z) (pinned : bool) (mac : list Z) : dh :=
  mkD OFF 0 0 0 0 0 0 0 0 0 0 now 0 [] 1 ip mask gw dns pinned mac.
