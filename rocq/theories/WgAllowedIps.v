(** wolfGuard cryptokey routing.  Models src/wolfguard/wg_allowedips.c:19-107 and
    its two users: wolfguard_output (src/wolfguard/wolfguard.c:271-296) and the
    inner-packet checks of wg_handle_data (src/wolfguard/wg_packet.c:388-455).
    IP words are raw network-order words as in the code (little-endian target,
    see ByteOrder). *)
From Verif Require Import Base ByteOrder.

(** wolfguard.h: struct wg_allowed_ip *)
Record aip := mkAip { a_ip : Z; a_cidr : Z; a_peer : Z; a_used : bool }.
Definition aip_zero := mkAip 0 0 0 false.
Definition MAX_ALLOWED_IPS := 32%nat.
Definition aips_init : list aip := repeat aip_zero MAX_ALLOWED_IPS.

(** wg_allowedips.c:19-26 cidr_to_mask *)
Definition cidr_to_mask (cidr : Z) : Z :=
  if cidr =? 0 then 0 else
  if 32 <=? cidr then 4294967295 else
  ee32 (u32 (Z.lnot (Z.shiftl 1 (32 - cidr) - 1))).

(** wg_allowedips.c:38-47: the duplicate scan; [None] when no entry matches. *)
Fixpoint aips_update (l : list aip) (masked cidr peer : Z) : option (list aip) :=
  match l with
  | [] => None
  | s :: l' =>
      if a_used s && (a_ip s =? masked) && (a_cidr s =? cidr)
      then Some (mkAip (a_ip s) (a_cidr s) peer (a_used s) :: l')
      else match aips_update l' masked cidr peer with Some r => Some (s :: r) | None => None end
  end.
(** wg_allowedips.c:49-58: the free-slot scan. *)
Fixpoint aips_alloc (l : list aip) (masked cidr peer : Z) : option (list aip) :=
  match l with
  | [] => None
  | s :: l' =>
      if negb (a_used s) then Some (mkAip masked cidr peer true :: l')
      else match aips_alloc l' masked cidr peer with Some r => Some (s :: r) | None => None end
  end.
(** wg_allowedips.c:31-61 wg_allowedips_insert; [true] is "return 0". *)
Definition aips_insert (l : list aip) (ip cidr peer : Z) : list aip * bool :=
  let masked := Z.land ip (cidr_to_mask cidr) in
  match aips_update l masked cidr peer with
  | Some l' => (l', true)
  | None => match aips_alloc l masked cidr peer with Some l' => (l', true) | None => (l, false) end
  end.

(** wg_allowedips.c:68-88 wg_allowedips_lookup: loop with accumulators best_idx, best_cidr. *)
Fixpoint aips_scan (l : list aip) (ip best_idx best_cidr : Z) : Z :=
  match l with
  | [] => best_idx
  | s :: l' =>
      if negb (a_used s) then aips_scan l' ip best_idx best_cidr else
      if Z.land ip (cidr_to_mask (a_cidr s)) =? a_ip s then
        if (best_idx <? 0) || (best_cidr <? a_cidr s)
        then aips_scan l' ip (a_peer s) (a_cidr s)
        else aips_scan l' ip best_idx best_cidr
      else aips_scan l' ip best_idx best_cidr
  end.
Definition aips_lookup (l : list aip) (ip : Z) : Z := aips_scan l ip (-1) 0.

(** wg_allowedips.c:94-105 wg_allowedips_remove_by_peer *)
Definition aips_remove (l : list aip) (peer : Z) : list aip :=
  map (fun s => if a_used s && (a_peer s =? peer) then aip_zero else s) l.

(** Four bytes in memory read as a uint32_t on a little-endian machine (memcpy). *)
Definition load_le32 (bs : list Z) : Z :=
  zget bs 0 + 256 * zget bs 1 + 65536 * zget bs 2 + 16777216 * zget bs 3.

(** src/wolfguard/wolfguard.c:271-296 wolfguard_output: the peer the packet is
    encrypted to, or [None] for "return -1".  [active] is peers[i].is_active,
    8 = WOLFGUARD_MAX_PEERS. *)
Definition wolfguard_output (l : list aip) (active : Z -> bool) (packet : list Z) : option Z :=
  if zlen packet <? 20 then None else
  if negb (Z.shiftr (zget packet 0) 4 =? 4) then None else
  let dst := load_le32 (skipn 16 packet) in
  let peer := aips_lookup l dst in
  if (peer <? 0) || (8 <=? peer) then None else
  if negb (active peer) then None else Some peer.

(** src/wolfguard/wg_packet.c:436-455, the tail of wg_handle_data: [plaintext] is
    what the AEAD returned under [peer]'s key; the result is the packet injected
    into the wg interface, if any. *)
Definition wg_inject (l : list aip) (peer : Z) (plaintext : list Z) : option (list Z) :=
  if zlen plaintext =? 0 then None else
  if (zlen plaintext <? 20) || negb (Z.shiftr (zget plaintext 0) 4 =? 4) then None else
  if zlen plaintext <? u16 (Z.lor (Z.shiftl (zget plaintext 2) 8) (zget plaintext 3)) then None else
  let src := load_le32 (skipn 12 plaintext) in
  let peer_idx := aips_lookup l src in
  if (peer_idx <? 0) || negb (peer_idx =? peer) then None else Some plaintext.
