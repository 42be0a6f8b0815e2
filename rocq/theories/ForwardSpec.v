(** Specification of IPv4 reception and forwarding, over the bytes of frames
    (Ethernet header 0..13, IPv4 header from 14), from RFC 791, 1122, 1812. *)
From Verif Require Import Base Checksum ChecksumProps Route RouteProps Arp Forward.

Definition part (f : list Z) (o n : Z) : list Z := firstn (Z.to_nat n) (skipn (Z.to_nat o) f).
Definition word (f : list Z) (o : Z) : Z := 256 * zget f o + zget f (o + 1).
Definition addr (f : list Z) (o : Z) : Z := 65536 * word f o + word f (o + 2).
Definition ihl (f : list Z) : Z := 4 * (zget f 14 mod 16).
Definition total (f : list Z) : Z := word f 16.
Definition ttl (f : list Z) : Z := zget f 22.
Definition proto (f : list Z) : Z := zget f 23.
Definition src (f : list Z) : Z := addr f 26.
Definition dst (f : list Z) : Z := addr f 30.

(** A complete IPv4 header with correct checksum, lengths that fit, not a fragment. *)
Definition wellformed (f : list Z) : Prop :=
  34 <= zlen f /\ zget f 14 / 16 = 4 /\ 20 <= ihl f <= total f /\ total f <= zlen f - 14 /\
  ones_complement_valid (part f 14 (ihl f)) /\ word f 20 mod 16384 = 0.

(** RFC 791 option walk: [o] is where an option starts. *)
Inductive opt_start (f : list Z) : Z -> Prop :=
| os_first : opt_start f 34
| os_nop o : opt_start f o -> o < 14 + ihl f -> zget f o = 1 -> opt_start f (o + 1)
| os_next o : opt_start f o -> o < 14 + ihl f -> zget f o <> 0 -> zget f o <> 1 -> opt_start f (o + zget f (o + 1)).
Definition source_routed (f : list Z) : Prop :=
  exists o, opt_start f o /\ o < 14 + ihl f /\ (zget f o = 131 \/ zget f o = 137).
(** Every option but the two one-byte ones has a length of at least 2 and ends inside the header. *)
Definition options_ok (f : list Z) : Prop :=
  forall o, opt_start f o -> o < 14 + ihl f -> zget f o <> 0 -> zget f o <> 1 ->
    o + 1 < 14 + ihl f /\ 2 <= zget f (o + 1) /\ o + zget f (o + 1) <= 14 + ihl f.

(** Address classes. *)
Definition multicast (a : Z) : Prop := 3758096384 <= a < 4026531840.
Definition loopback (a : Z) : Prop := a / 16777216 = 127.
Definition link_local (a : Z) : Prop := a / 65536 = 43518.
Definition confs (w : world) : list ipconf := map i_conf (w_ifs w).
Definition conf_of (w : world) (i : Z) (c : ipconf) : Prop := 0 <= i /\ nth_error (confs w) (Z.to_nat i) = Some c /\ c_ip c <> 0.
Definition in_subnet (c : ipconf) (a : Z) : Prop :=
  if c_mask c =? 0 then a = c_ip c else Z.land a (c_mask c) = Z.land (c_ip c) (c_mask c).
Definition broadcast (w : world) (a : Z) : Prop :=
  a = 4294967295 \/ exists i c, conf_of w i c /\ c_mask c <> 0 /\ c_mask c <> 4294967295 /\
                                a = Z.lor (Z.land (c_ip c) (c_mask c)) (4294967295 - c_mask c).
Definition own (w : world) (a : Z) : Prop := exists i c, conf_of w i c /\ c_ip c = a.
Definition is_loop (w : world) (i : Z) : Prop := w_lb w = true /\ i = 0.
Definition ethernet (w : world) (i : Z) : Prop := ~ exists x, nth_error (w_ifs w) (Z.to_nat i) = Some x /\ i_noneth x = true.

(** Accepted for processing (local or forwarded) on interface [i]. *)
Definition acceptable (w : world) (i : Z) (f : list Z) : Prop :=
  wellformed f /\ ~ broadcast w (src f) /\ ~ multicast (src f) /\ (src f = 0 -> w_dhcp w = true) /\
  (~ is_loop w i -> ~ loopback (src f) /\ ~ loopback (dst f)) /\
  w_frecv w i f = false /\ ~ source_routed f /\ options_ok f.

(** For this host. *)
Definition for_us (w : world) (f : list Z) : Prop := dst f = 0 \/ broadcast w (dst f) \/ own w (dst f).
(** A source that cannot legitimately come in on [i]. *)
Definition martian (w : world) (i : Z) (f : list Z) : Prop :=
  (loopback (src f) /\ ~ is_loop w i) \/ link_local (src f) \/ own w (src f) \/
  (exists j c, conf_of w j c /\ j <> i /\ in_subnet c (src f)).
(** Received as a link-layer broadcast or multicast. *)
Definition l2_group (w : world) (i : Z) (f : list Z) : Prop := ethernet w i /\ zget f 0 mod 2 = 1.

(** Where a packet for [d] from interface [i] goes: the first other interface whose
    subnet contains [d], directly; else the best static route (longest prefix,
    then oldest, then lowest interface), through its gateway; never back out of [i]. *)
Definition connected (w : world) (i d out : Z) : Prop :=
  exists c, conf_of w out c /\ out <> i /\ in_subnet c d.
Definition static_best (w : world) (d : Z) (r : route) : Prop :=
  In r (w_routes w) /\ r_used r = true /\ same_prefix (r_len r) d (r_prefix r) /\
  forall r', In r' (w_routes w) -> r_used r' = true -> same_prefix (r_len r') d (r_prefix r') ->
    at_least_as_good (r_len r) (r_order r) (r_if r) (r_len r') (r_order r') (r_if r').
Definition egress (w : world) (i d out nh : Z) : Prop :=
  out <> i /\
  ((connected w i d out /\ nh = d /\ forall o, connected w i d o -> out <= o) \/
   ((forall o, ~ connected w i d o) /\
    exists r, static_best w d r /\ out = r_if r /\ nh = (if r_gw r =? 0 then d else r_gw r))).

(** What must hold for a packet to be relayed. *)
Definition forwardable (w : world) (i : Z) (f : list Z) (out nh : Z) : Prop :=
  acceptable w i f /\ ~ for_us w f /\ ~ martian w i f /\ ~ l2_group w i f /\ egress w i (dst f) out nh.

(** [g] is the relayed form of [f]: exactly the declared length, TTL one less, the
    checksum recomputed and correct, every other byte of the datagram the same. *)
Definition relayed (f g : list Z) : Prop :=
  zlen g = 14 + total f /\ 2 <= ttl f /\ ttl g = ttl f - 1 /\
  (forall k, 14 <= k < zlen g -> k <> 22 -> k <> 24 -> k <> 25 -> zget g k = zget f k) /\
  ones_complement_valid (part g 14 (ihl g)) /\ Forall byte g.

(** The link-layer destination of a frame relayed to next hop [nh] on [out]: the
    neighbour's address according to ARP table [a] (own address on the loopback,
    all-ones for a broadcast next hop). *)
Definition addressed (w : world) (a : arpst) (out nh : Z) (g : list Z) : Prop :=
  exists x, nth_error (w_ifs w) (Z.to_nat out) = Some x /\
  (i_noneth x = false ->
     part g 6 6 = i_mac x /\ word g 12 = 2048 /\
     ((is_loop w out /\ part g 0 6 = i_mac x) \/ (broadcast w nh /\ part g 0 6 = repeat 255 6) \/
      exists n, In n (a_nbs a) /\ n_ip n = nh /\ n_if n = out /\ n_mac n = part g 0 6)).

(** What is handed to the transport protocols: the same datagram without its
    options, with a correct header checksum. *)
Definition delivered (f g : list Z) : Prop :=
  zlen g = zlen f - (ihl f - 20) /\ zget g 14 = 69 /\ total g = total f - (ihl f - 20) /\
  (forall k, 0 <= k < 34 -> k <> 14 -> k <> 16 -> k <> 17 -> k <> 24 -> k <> 25 -> zget g k = zget f k) /\
  part g 34 (zlen g - 34) = part f (14 + ihl f) (zlen f - (14 + ihl f)) /\
  ones_complement_valid (part g 14 20).

(** The ICMP error messages: destination unreachable, source quench, redirect,
    time exceeded, parameter problem. *)
Definition icmp_error (f : list Z) : Prop :=
  proto f = 1 /\ ihl f < total f /\ In (zget f (14 + ihl f)) [3; 4; 5; 11; 12].
(** [g] is an ICMP time exceeded message about [f], sent back by [w]'s interface [i]. *)
Definition time_exceeded (w : world) (i : Z) (f g : list Z) : Prop :=
  exists x, nth_error (w_ifs w) (Z.to_nat i) = Some x /\
  let q := Z.min (total f) (ihl f + 8) in
  zlen g = 42 + q /\ zget g 14 = 69 /\ total g = 28 + q /\ word g 20 = 16384 /\ ttl g = 64 /\ proto g = 1 /\
  src g = c_ip (i_conf x) /\ dst g = src f /\ zget g 15 = zget f 15 /\
  ones_complement_valid (part g 14 20) /\ ones_complement_valid (part g 34 (8 + q)) /\
  zget g 34 = 11 /\ zget g 35 = 0 /\ part g 42 q = part f 14 q /\
  (i_noneth x = false -> part g 0 6 = part f 6 6 /\ part g 6 6 = i_mac x /\ word g 12 = 2048).

(** Inputs the theorems range over. *)
Definition iface_ok (x : iface) : Prop := zlen (i_mac x) = 6 /\ Forall byte (i_mac x) /\ conf_ok (i_conf x).
Definition world_ok (w : world) : Prop :=
  Forall iface_ok (w_ifs w) /\ zlen (w_ifs w) <= 256 /\ Forall (route_ok (zlen (w_ifs w))) (w_routes w) /\
  (forall i, w_mtu w i <= 1536).
Definition fop_ok (o : fop) : Prop :=
  match o with
  | FIp w i f | FArp w i f _ => world_ok w /\ 0 <= i < zlen (w_ifs w) /\ Forall byte f
  | FTick _ | FPurge _ => True
  end.
(** Reachable states, with the history that led there. *)
Definition reached (os : list fop) (st : fst_) : Prop := Forall fop_ok os /\ exists es, frun fwd_init os = Some (st, es).
