(** Model of the route table and route lookup.
    Source: /repo/src/wolfip.c:1801-1845 (prefix helpers), 1856-1863
    (ip_is_local_conf), 1958-1981 (broadcast test), 1983-2003 (forward interface),
    2005-2134 (lookup), 11754-11892 (table API). *)
From Verif Require Import Base.

(** struct ipconf, wolfip.h:258-263 (the driver pointer is irrelevant here). *)
Record ipconf := { c_ip : Z; c_mask : Z; c_gw : Z }.

(** struct wolfIP_route_entry, wolfip.c:1421-1428. *)
Record route := { r_used : bool; r_if : Z; r_len : Z; r_prefix : Z; r_gw : Z; r_order : Z }.
Definition route0 : route := {| r_used := false; r_if := 0; r_len := 0; r_prefix := 0; r_gw := 0; r_order := 0 |}.

(** wolfIP_mask_prefix_len, wolfip.c:1801-1824.  [None] is -WOLFIP_EINVAL; [todo] = bits left. *)
Fixpoint mask_prefix_loop (todo : nat) (mask bit len : Z) (seen_zero : bool) : option Z :=
  match todo with
  | O => Some len
  | S todo =>
      if negb (Z.land mask (Z.shiftr 2147483648 bit) =? 0)
      then if seen_zero then None else mask_prefix_loop todo mask (bit + 1) (u8 (len + 1)) seen_zero
      else mask_prefix_loop todo mask (bit + 1) len true
  end.
Definition mask_prefix_len (mask : Z) : option Z := mask_prefix_loop 32 mask 0 0 false.

(** wolfIP_prefix_mask, wolfip.c:1827-1834. *)
Definition prefix_mask (len : Z) : Z :=
  if len =? 0 then 0 else if 32 <=? len then 4294967295 else u32 (Z.shiftl 4294967295 (32 - len)).

(** wolfIP_route_match_prefix, wolfip.c:1836-1844. *)
Definition route_match_prefix (addr prefix len : Z) : bool :=
  let mask := prefix_mask len in
  if len =? 0 then true else Z.land addr mask =? Z.land prefix mask.

(** ip_is_local_conf, wolfip.c:1856-1863. *)
Definition ip_is_local_conf (c : ipconf) (addr : Z) : bool :=
  if c_mask c =? 0 then c_ip c =? addr else Z.land addr (c_mask c) =? Z.land (c_ip c) (c_mask c).

(** wolfIP_ip_is_multicast, wolfip.c:1865-1868. *)
Definition ip_is_multicast (addr : Z) : bool := Z.land addr 4026531840 =? 3758096384.

(** wolfIP_ip_is_broadcast, wolfip.c:1958-1981. *)
Definition conf_bcast (c : ipconf) (addr : Z) : bool :=
  if c_ip c =? 0 then false else
  if (c_mask c =? 0) || (c_mask c =? 4294967295) then false else
  addr =? Z.lor (Z.land (c_ip c) (c_mask c)) (4294967295 - c_mask c).
Definition ip_is_broadcast (cs : list ipconf) (addr : Z) : bool :=
  if addr =? 4294967295 then true else existsb (fun c => conf_bcast c addr) cs.

(** wolfIP_forward_interface, wolfip.c:1984-2003.  [None] is -1. *)
Fixpoint forward_if_loop (cs : list ipconf) (i in_if dest : Z) : option Z :=
  match cs with
  | [] => None
  | c :: cs =>
      if i =? in_if then forward_if_loop cs (i + 1) in_if dest
      else if c_ip c =? 0 then forward_if_loop cs (i + 1) in_if dest
      else if dest =? c_ip c then None
      else if ip_is_local_conf c dest then Some i
      else forward_if_loop cs (i + 1) in_if dest
  end.
Definition forward_interface (cs : list ipconf) (in_if dest : Z) : option Z :=
  if zlen cs <? 2 then None else forward_if_loop cs 0 in_if dest.

(** wolfIP_route_lookup_internal, wolfip.c:2005-2134.
    [best]: best_if, best_nexthop, best_prefix, best_order, found. *)
Record best := { b_if : Z; b_nh : Z; b_len : Z; b_ord : Z; b_found : bool }.

(** First loop (2040-2068): [inl (if)] is the immediate return for an own address. *)
Fixpoint lookup_conn (cs : list ipconf) (i dest : Z) (b : best) : Z + best :=
  match cs with
  | [] => inr b
  | c :: cs =>
      if c_ip c =? 0 then lookup_conn cs (i + 1) dest b
      else if c_ip c =? dest then inl i
      else if negb (ip_is_local_conf c dest) then lookup_conn cs (i + 1) dest b
      else match mask_prefix_len (c_mask c) with
           | None => lookup_conn cs (i + 1) dest b
           | Some len =>
               if negb (b_found b) || (b_len b <? len)
               then lookup_conn cs (i + 1) dest {| b_if := i; b_nh := dest; b_len := len; b_ord := 0; b_found := true |}
               else lookup_conn cs (i + 1) dest b
           end
  end.

(** Second loop (2069-2091). *)
Definition route_better (r : route) (b : best) : bool :=
  negb (b_found b) || (b_len b <? r_len r) ||
  ((r_len r =? b_len b) && (r_order r <? b_ord b)) ||
  ((r_len r =? b_len b) && (r_order r =? b_ord b) && (r_if r <? b_if b)).
Fixpoint lookup_static (rs : list route) (dest : Z) (b : best) : best :=
  match rs with
  | [] => b
  | r :: rs =>
      if negb (r_used r) then lookup_static rs dest b
      else if negb (route_match_prefix dest (r_prefix r) (r_len r)) then lookup_static rs dest b
      else if route_better r b
           then lookup_static rs dest
                  {| b_if := r_if r; b_nh := (if negb (r_gw r =? 0) then r_gw r else dest);
                     b_len := r_len r; b_ord := r_order r; b_found := true |}
           else lookup_static rs dest b
  end.

(** Fallback loop (2094-2113): first non-loopback interface with an address or gateway, first with a gateway.
    [lb] = loopback support compiled in (interface 0 is then the loopback). *)
Definition is_loopback_if (lb : bool) (i : Z) : bool := lb && (i =? 0).
Fixpoint lookup_fallback (lb : bool) (cs : list ipconf) (i : Z) (gw nl : option Z) : option Z * option Z :=
  match cs with
  | [] => (gw, nl)
  | c :: cs =>
      if (c_ip c =? 0) && (c_gw c =? 0) then lookup_fallback lb cs (i + 1) gw nl
      else
        let nl := match nl with None => if is_loopback_if lb i then None else Some i | _ => nl end in
        let gw := match gw with None => if negb (is_loopback_if lb i) && negb (c_gw c =? 0) then Some i else None | _ => gw end in
        lookup_fallback lb cs (i + 1) gw nl
  end.

Definition conf0 : ipconf := {| c_ip := 0; c_mask := 0; c_gw := 0 |}.
Definition conf_at (cs : list ipconf) (i : Z) : ipconf := nth (Z.to_nat i) cs conf0.

Definition primary_if (lb : bool) (cs : list ipconf) : Z :=
  let p := if lb then 1 else 0 in if p <? zlen cs then p else 0.

(** The whole function; [None] is -WOLFIP_EINVAL (no interface). *)
Definition route_lookup (lb : bool) (cs : list ipconf) (rs : list route) (dest : Z) : option (Z * Z) :=
  if zlen cs =? 0 then None else
  let b0 := {| b_if := primary_if lb cs; b_nh := dest; b_len := 0; b_ord := 4294967295; b_found := false |} in
  if (dest =? 0) || ip_is_broadcast cs dest then Some (b_if b0, dest) else
  match lookup_conn cs 0 dest b0 with
  | inl i => Some (i, dest)
  | inr b =>
      let b := lookup_static rs dest b in
      if b_found b then Some (b_if b, b_nh b)
      else match lookup_fallback lb cs 0 None None with
           | (Some g, _) => let c := conf_at cs g in
                            Some (g, if negb (c_gw c =? 0) then c_gw c else dest)
           | (None, Some n) => Some (n, dest)
           | (None, None) => Some (b_if b, b_nh b)
           end
  end.

(** ** The table API *)
Definition EINVAL : Z := -22.
Definition ENOMEM : Z := -12.

(** wolfIP_route_count, wolfip.c:11755-11769. *)
Definition route_count (rs : list route) : Z := zlen (filter r_used rs).

(** wolfIP_route_get, wolfip.c:11771-11799.  [None] is -WOLFIP_EINVAL. *)
Fixpoint route_get (rs : list route) (seen idx : Z) : option route :=
  match rs with
  | [] => None
  | r :: rs =>
      if negb (r_used r) then route_get rs seen idx
      else if negb (seen =? idx) then route_get rs (seen + 1) idx
      else Some r
  end.

(** wolfIP_route_add, wolfip.c:11801-11847: first the scan (update in place when
    the key is present, remember the first free slot), then the insertion. *)
Definition route_key_eq (r : route) (ifx prefix len : Z) : bool :=
  (r_if r =? ifx) && (r_len r =? len) && (r_prefix r =? prefix).
Fixpoint add_scan (rs : list route) (ifx prefix len gw : Z) : option (list route) :=
  match rs with
  | [] => None
  | r :: rs =>
      if negb (r_used r) then option_map (cons r) (add_scan rs ifx prefix len gw)
      else if route_key_eq r ifx prefix len
      then Some ({| r_used := true; r_if := r_if r; r_len := r_len r; r_prefix := r_prefix r; r_gw := gw; r_order := r_order r |} :: rs)
      else option_map (cons r) (add_scan rs ifx prefix len gw)
  end.
Fixpoint add_free (rs : list route) (new : route) : option (list route) :=
  match rs with
  | [] => None
  | r :: rs => if negb (r_used r) then Some (new :: rs) else option_map (cons r) (add_free rs new)
  end.
Definition route_add (nif : Z) (rs : list route) (gen ifx prefix len gw : Z) : (list route * Z) * Z :=
  if (nif <=? ifx) || (32 <? len) then ((rs, gen), EINVAL) else
  let prefix := Z.land prefix (prefix_mask len) in
  match add_scan rs ifx prefix len gw with
  | Some rs => ((rs, gen), 0)
  | None =>
      match add_free rs {| r_used := true; r_if := u8 ifx; r_len := len; r_prefix := prefix; r_gw := gw; r_order := gen |} with
      | None => ((rs, gen), ENOMEM)
      | Some rs => ((rs, u32 (gen + 1)), 0)
      end
  end.

(** wolfIP_route_delete, wolfip.c:11849-11880. *)
Fixpoint del_scan (rs : list route) (ifx prefix len : Z) : option (list route) :=
  match rs with
  | [] => None
  | r :: rs =>
      if r_used r && route_key_eq r ifx prefix len then Some (route0 :: rs)
      else option_map (cons r) (del_scan rs ifx prefix len)
  end.
Definition route_delete (nif : Z) (rs : list route) (ifx prefix len : Z) : list route * Z :=
  if (nif <=? ifx) || (32 <? len) then (rs, EINVAL) else
  match del_scan rs ifx (Z.land prefix (prefix_mask len)) len with
  | Some rs => (rs, 0)
  | None => (rs, EINVAL)
  end.
