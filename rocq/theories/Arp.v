(** ARP: neighbour cache, pending requests, request rate limit, frame handling.
    Source: /repo/src/wolfip.c:9530-9567 (store), 9575-9596 (index / ageing),
    9602-9626 (pending match), 9632-9657 (pending record), 9659-9697 (request),
    9730-9812 (receive), 9814-9832 (lookup), 4452-4469 (Ethernet header),
    11684-11697 (tick), 10000-10027 (purge on VLAN deletion).
    MAX_NEIGHBORS 16 (config.h:32), WOLFIP_ARP_PENDING_MAX 4, ARP_PENDING_TTL_MS
    5000, ARP_AGING_TIMEOUT_MS 120000 (wolfip.c:1372-1389).
    Simplifications: the packet-filter hook accepts everything; the queue of
    packets being forwarded (arp_flush_pending) is in the forwarding model: its
    lookup finds the entry just stored and rewrites the same time stamp. *)
From Verif Require Import Base ListUtil Route.

(** wolfip.c:1365-1371 struct arp_neighbor *)
Record nb := mkNb { n_ip : Z; n_if : Z; n_mac : list Z; n_ts : Z }.
Definition nb0 : nb := mkNb 0 0 [0; 0; 0; 0; 0; 0] 0.
(** wolfip.c:1380-1386 struct arp_pending_req *)
Record pd := mkPd { p_ip : Z; p_if : Z; p_ts : Z }.
Definition pd0 : pd := mkPd 0 0 0.

(** The ARP part of struct wolfIP (wolfip.c:1480-1490). *)
Record arpst := mkArp { a_nbs : list nb; a_pds : list pd; a_last : Z -> Z; a_tick : Z }.
Definition arp_init : arpst := mkArp (repeat nb0 16) (repeat pd0 4) (fun _ => 0) 0.

(** An interface: MAC address, non_ethernet flag, IP configuration. *)
Record iface := mkIf { i_mac : list Z; i_noneth : bool; i_conf : ipconf }.

Definition nb_match (n : nb) (ifx ip : Z) : bool := (n_ip n =? ip) && (n_if n =? ifx).

(** wolfip.c:9575-9596 arp_neighbor_index: the new table and the MAC of the entry
    found (the code returns its index; both callers only use its mac). *)
Fixpoint arp_neighbor_index (l : list nb) (ifx ip now : Z) : list nb * option (list Z) :=
  match l with
  | [] => ([], None)
  | n :: l' =>
      if nb_match n ifx ip then
        if (n_ts n <=? now) && (120000 <? now - n_ts n) then (nb0 :: l', None)
        else (mkNb (n_ip n) (n_if n) (n_mac n) now :: l', Some (n_mac n))
      else let '(r, o) := arp_neighbor_index l' ifx ip now in (n :: r, o)
  end.

(** wolfip.c:9539-9546: first matching slot, else first empty slot. *)
Fixpoint store_slot (l : list nb) (ifx ip : Z) (i : nat) (slot : option nat) : option nat :=
  match l with
  | [] => slot
  | n :: l' =>
      if nb_match n ifx ip then Some i
      else store_slot l' ifx ip (S i)
             (match slot with None => if n_ip n =? 0 then Some i else None | Some _ => slot end)
  end.
(** wolfip.c:9551-9558: the oldest entry ([i] starts at 1). *)
Fixpoint oldest_slot (l : list nb) (i : nat) (best : nat) (ts : Z) : nat :=
  match l with
  | [] => best
  | n :: l' => if n_ts n <? ts then oldest_slot l' (S i) i (n_ts n) else oldest_slot l' (S i) best ts
  end.
(** wolfip.c:9530-9567 arp_store_neighbor *)
Definition arp_store_neighbor (l : list nb) (ifx ip : Z) (mac : list Z) (now : Z) : list nb :=
  let slot := match store_slot l ifx ip 0 None with
              | Some i => i
              | None => match l with [] => O | n :: l' => oldest_slot l' 1 0 (n_ts n) end
              end in
  set_nth slot (mkNb ip (u8 ifx) mac now) l.

(** wolfip.c:9602-9626 arp_pending_match_and_clear *)
Fixpoint arp_pending_match (l : list pd) (ifx ip now : Z) : list pd * bool :=
  match l with
  | [] => ([], false)
  | p :: l' =>
      if p_ip p =? 0 then let '(r, b) := arp_pending_match l' ifx ip now in (p :: r, b)
      else if (p_ts p <=? now) && (5000 <? now - p_ts p)
      then let '(r, b) := arp_pending_match l' ifx ip now in (mkPd 0 (p_if p) 0 :: r, b)
      else if (p_ip p =? ip) && (p_if p =? u8 ifx) then (mkPd 0 (p_if p) 0 :: l', true)
      else let '(r, b) := arp_pending_match l' ifx ip now in (p :: r, b)
  end.

(** wolfip.c:9632-9657 arp_pending_record; the scan returns [inl i] when slot [i]
    already holds the request, else [inr slot] with the slot to use. *)
Fixpoint pending_scan (l : list pd) (ifx ip : Z) (i : nat) (empty : option nat) (oldest : nat) (ots : Z) : nat + nat :=
  match l with
  | [] => inr (match empty with Some e => e | None => oldest end)
  | p :: l' =>
      if (p_ip p =? ip) && (p_if p =? u8 ifx) then inl i
      else
        let empty := if p_ip p =? 0 then match empty with None => Some i | _ => empty end else empty in
        if negb (p_ip p =? 0) && (p_ts p <? ots) then pending_scan l' ifx ip (S i) empty i (p_ts p)
        else pending_scan l' ifx ip (S i) empty oldest ots
  end.
Definition arp_pending_record (l : list pd) (ifx ip now : Z) : list pd :=
  match pending_scan l ifx ip 0 None 0 18446744073709551615 with
  | inl i => let p := nth i l pd0 in set_nth i (mkPd (p_ip p) (p_if p) now) l
  | inr i => set_nth i (mkPd ip (u8 ifx) now) l
  end.

Definition be16 (v : Z) : list Z := [Z.shiftr v 8 mod 256; v mod 256].
Definition be32 (v : Z) : list Z := [Z.shiftr v 24 mod 256; Z.shiftr v 16 mod 256; Z.shiftr v 8 mod 256; v mod 256].
Definition rd16 (f : list Z) (o : Z) : Z := 256 * zget f o + zget f (o + 1).
Definition rd32 (f : list Z) (o : Z) : Z :=
  16777216 * zget f o + 65536 * zget f (o + 1) + 256 * zget f (o + 2) + zget f (o + 3).
Definition slice (f : list Z) (o n : nat) : list Z := firstn n (skipn o f).

(** The 42-byte ARP frame (struct arp_packet): Ethernet header, htype 1, ptype
    0x0800, hlen 6, plen 4, opcode, sma, sip, tma, tip. *)
Definition arp_frame (dst src : list Z) (op : Z) (sma : list Z) (sip : Z) (tma : list Z) (tip : Z) : list Z :=
  dst ++ src ++ be16 2054 ++ be16 1 ++ be16 2048 ++ [6; 4] ++ be16 op ++ sma ++ be32 sip ++ tma ++ be32 tip.

(** wolfip.c:9659-9697 arp_request: the frame sent, if any. *)
Definition arp_request (ifs : list iface) (st : arpst) (ifx tip : Z) : arpst * option (list Z) :=
  match nth_error ifs (Z.to_nat ifx) with
  | None => (st, None)
  | Some i =>
      if i_noneth i then (st, None) else
      if negb (a_last st ifx =? 0) && (a_tick st <? a_last st ifx + 1000) then (st, None) else
      let st1 := mkArp (a_nbs st) (arp_pending_record (a_pds st) ifx tip (a_tick st))
                       (fun k => if k =? ifx then a_tick st + 1 else a_last st k) (a_tick st) in
      (st1, Some (arp_frame [255; 255; 255; 255; 255; 255] (i_mac i) 1 (i_mac i) (c_ip (i_conf i))
                            [0; 0; 0; 0; 0; 0] tip))
  end.

(** What receiving a frame did besides updating the tables. *)
Inductive arp_out := ArpNone | ArpSend (frame : list Z) | ArpDadConflict.

(** wolfip.c:9730-9812 arp_recv; [dad] is dhcp_state == DHCP_DAD. *)
Definition arp_recv (ifs : list iface) (st : arpst) (ifx : Z) (f : list Z) (dad : bool) : arpst * arp_out :=
  if zlen f <? 42 then (st, ArpNone) else
  match nth_error ifs (Z.to_nat ifx) with
  | None => (st, ArpNone)
  | Some i =>
    if i_noneth i then (st, ArpNone) else
    let ip := c_ip (i_conf i) in
    let cs := map i_conf ifs in
    if negb (rd16 f 14 =? 1) || negb (rd16 f 16 =? 2048) || negb (zget f 18 =? 6) || negb (zget f 19 =? 4)
    then (st, ArpNone) else
    let op := rd16 f 20 in
    let sma := slice f 22 6 in
    let sip := rd32 f 28 in
    let tip := rd32 f 38 in
    if negb (Z.land (zget f 22) 1 =? 0) then (st, ArpNone) else
    if (op =? 1) && (tip =? ip) then
      let nbs := if negb (sip =? 0) && negb (sip =? ip) && negb (ip_is_broadcast cs sip) && negb (ip_is_multicast sip)
                 then fst (arp_neighbor_index (a_nbs st) ifx sip (a_tick st)) else a_nbs st in
      (mkArp nbs (a_pds st) (a_last st) (a_tick st),
       ArpSend (sma ++ i_mac i ++ be16 2054 ++ slice f 14 6 ++ be16 2 ++ i_mac i ++ be32 ip ++ sma ++ be32 sip ++ skipn 42 f))
    else if op =? 2 then
      if dad && (sip =? ip) then
        (st, if list_eq_dec Z.eq_dec sma (i_mac i) then ArpNone else ArpDadConflict)
      else if (sip =? 0) || (sip =? ip) || ip_is_broadcast cs sip || ip_is_multicast sip then (st, ArpNone)
      else
        let '(pds, pending) := arp_pending_match (a_pds st) ifx sip (a_tick st) in
        (mkArp (if pending then arp_store_neighbor (a_nbs st) ifx sip sma (a_tick st) else a_nbs st)
               pds (a_last st) (a_tick st), ArpNone)
    else (st, ArpNone)
  end.

(** wolfip.c:9814-9832 wolfIP_arp_lookup_ex *)
Definition arp_lookup (st : arpst) (ifx ip : Z) : arpst * option (list Z) :=
  let '(l, o) := arp_neighbor_index (a_nbs st) ifx ip (a_tick st) in
  (mkArp l (a_pds st) (a_last st) (a_tick st), o).

(** wolfip.c:11684-11697, start of wolfIP_poll *)
Definition arp_tick (st : arpst) (now : Z) : arpst :=
  mkArp (a_nbs st) (a_pds st) (if now <? a_tick st then fun _ => 0 else a_last st) now.

(** wolfip.c:10004-10027, deletion of the VLAN interface [ifx] *)
Definition arp_purge (st : arpst) (ifx : Z) : arpst :=
  mkArp (map (fun n => if n_if n =? u8 ifx then nb0 else n) (a_nbs st))
        (map (fun p => if p_if p =? u8 ifx then pd0 else p) (a_pds st))
        (fun k => if k =? ifx then 0 else a_last st k) (a_tick st).
