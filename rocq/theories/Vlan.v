(** 802.1Q VLAN sub-interfaces.
    Source: /repo/src/wolfip.c:134-138 (constants), 9893-10060 (wolfIP_vlan_create /
    _delete / _get), 1726-1786 (wolfIP_ll_send_frame), 10446-10518 (VLAN part of
    wolfIP_recv_on), 1535-1556 (frame MTU).
    Simplifications: a pointer into s->ll_dev[] is its index; vlan_active and
    vlan_parent are one option (they are set and cleared together at 9972-9976 and
    9998); all error returns are -WOLFIP_EINVAL and become None; the ARP purge of
    delete is in Arp.v; eth-layer filters and packet sockets are not modelled. *)
From Verif Require Import Base ListUtil Arp Mtu.

(** wolfip.h:243-255 VLAN fields of struct wolfIP_ll_dev *)
Record vcfg := { vc_parent : nat; vc_vid : Z; vc_pcp : Z; vc_dei : Z }.
(** wolfip.h:220-256 struct wolfIP_ll_dev; callbacks are present or absent,
    [d_name] is the C string in ifname *)
Record dev := { d_send : bool; d_poll : bool; d_noneth : bool; d_mtu : Z; d_mac : list Z; d_name : list Z; d_vlan : option vcfg }.
(** memset(slot, 0, sizeof) *)
Definition dev0 : dev := {| d_send := false; d_poll := false; d_noneth := false; d_mtu := 0; d_mac := [0; 0; 0; 0; 0; 0]; d_name := []; d_vlan := None |}.

(** wolfip.c:9917-9924: is (parent, vid) taken? *)
Definition vlan_dup (p : nat) (vid : Z) (d : dev) : bool :=
  match d_vlan d with Some c => Nat.eqb (vc_parent c) p && (vc_vid c =? vid) | None => false end.
Definition is_vlan (d : dev) : bool := match d_vlan d with Some _ => true | None => false end.
(** wolfip.c:9932-9940 free slot test *)
Definition slot_free (d : dev) : bool := negb (is_vlan d) && negb (d_send d) && negb (d_poll d).
(** first free slot other than [p], numbering from [k] *)
Fixpoint find_slot (p k : nat) (t : list dev) : option nat :=
  match t with
  | [] => None
  | d :: t => if negb (Nat.eqb k p) && slot_free d then Some k else find_slot p (S k) t
  end.

(** wolfip.c:9953-9956: at most 9 bytes of the parent's name (cap - 7 = 9), up to NUL *)
Fixpoint name_prefix (n : nat) (s : list Z) : list Z :=
  match n, s with
  | S n, c :: s => if c =? 0 then [] else c :: name_prefix n s
  | _, _ => []
  end.
(** wolfip.c:9962-9968: decimal digits, [fuel] is the size of digits[6] *)
Fixpoint dec_digits (fuel : nat) (v : Z) (acc : list Z) : list Z :=
  match fuel with
  | O => acc
  | S fuel => if 0 <? v then dec_digits fuel (v / 10) ((48 + v mod 10) :: acc) else acc
  end.
(** wolfip.c:9946-9970 *)
Definition vlan_ifname (parent : list Z) (vid : Z) : list Z :=
  name_prefix 9 parent ++ [46] ++ (if vid =? 0 then [48] else dec_digits 6 vid []).

(** wolfip.c:9893-9986; arguments are uint16_t / uint8_t *)
Definition vlan_create (t : list dev) (p : nat) (vid pcp dei : Z) : list dev * option nat :=
  match nth_error t p with
  | None => (t, None)
  | Some pd =>
      if is_vlan pd then (t, None) else
      if negb (d_send pd) then (t, None) else
      if d_noneth pd then (t, None) else
      if 4094 <? vid then (t, None) else
      if 7 <? pcp then (t, None) else
      if 1 <? dei then (t, None) else
      if existsb (vlan_dup p vid) t then (t, None) else
      if 4 <=? zlen (filter is_vlan t) then (t, None) else
      match find_slot p 0 t with
      | None => (t, None)
      | Some i =>
          (set_nth i {| d_send := false; d_poll := false; d_noneth := d_noneth pd; d_mtu := 0; d_mac := d_mac pd;
                        d_name := vlan_ifname (d_name pd) vid;
                        d_vlan := Some {| vc_parent := p; vc_vid := vid; vc_pcp := pcp; vc_dei := dei |} |} t, Some i)
      end
  end.
(** wolfip.c:9988-10027 *)
Definition vlan_delete (t : list dev) (i : nat) : list dev * bool :=
  match nth_error t i with
  | Some d => if is_vlan d then (set_nth i dev0 t, true) else (t, false)
  | None => (t, false)
  end.
(** wolfip.c:10029-10060; the parent pointer is looked up among the slots *)
Definition vlan_get (t : list dev) (i : nat) : option vcfg :=
  match nth_error t i with
  | Some d => match d_vlan d with
              | Some c => if Nat.ltb (vc_parent c) (length t) then Some c else None
              | None => None
              end
  | None => None
  end.
(** wolfIP_getdev_ex (wolfip.c:9886) hands the driver a pointer to the slot; a driver
    sets the callbacks, flags, MTU, MAC and name, not the VLAN fields. *)
Definition dev_setup (t : list dev) (i : nat) (send poll noneth : bool) (mtu : Z) (mac name : list Z) : list dev :=
  match nth_error t i with
  | Some d => set_nth i {| d_send := send; d_poll := poll; d_noneth := noneth; d_mtu := mtu; d_mac := mac; d_name := name; d_vlan := d_vlan d |} t
  | None => t
  end.

(** wolfip.c:1535-1556: [None] is recursion deeper than the table *)
Fixpoint dev_chain (fuel : nat) (t : list dev) (i : nat) : option lldev :=
  match fuel with
  | O => None
  | S fuel =>
      match nth_error t i with
      | None => None
      | Some d => match d_vlan d with
                  | None => Some (Phys (d_mtu d))
                  | Some c => option_map VlanOn (dev_chain fuel t (vc_parent c))
                  end
      end
  end.

(** wolfip.c:1778-1780 *)
Definition vlan_tci (c : vcfg) : Z :=
  u16 (Z.lor (Z.lor (Z.shiftl (Z.land (vc_pcp c) 7) 13) (Z.shiftl (Z.land (vc_dei c) 1) 12)) (Z.land (vc_vid c) 4095)).
(** What a driver's send callback is called with, or the error return. *)
Inductive txres := TxErr | Tx (on_if : nat) (bytes : list Z).
(** wolfip.c:1726-1786.  [None] is undefined behaviour (buffer overrun, NULL call). *)
Definition ll_send_frame (t : list dev) (i : nat) (buf : list Z) : option txres :=
  let len := zlen buf in
  match nth_error t i with
  | None => Some TxErr
  | Some d =>
      if negb (is_vlan d) && negb (d_send d) then Some TxErr else
      do ch <- dev_chain (length t) t i;
      if ll_frame_mtu ch <? len then Some TxErr else
      if d_noneth d then
        if len <=? 14 then Some TxErr else
        do b <- mread buf 14 (len - 14);
        if d_send d then Some (Tx i b) else None
      else
      match d_vlan d with
      | None => if d_send d then Some (Tx i buf) else None
      | Some c =>
          if len <? 14 then Some TxErr else
          match nth_error t (vc_parent c) with
          | None => None
          | Some pd =>
              if negb (d_send pd) then Some TxErr else
              do pch <- dev_chain (length t) t (vc_parent c);
              if ll_frame_mtu pch <? len + 4 then Some TxErr else
              let staging := repeat 0 1540 in
              do m0 <- mread buf 0 12;
              do st <- mwrite staging 0 m0;
              do st <- mwrite st 12 (be16 33024);
              do st <- mwrite st 14 (be16 (vlan_tci c));
              do m1 <- mread buf 12 (len - 12);
              do st <- mwrite st 16 m1;
              do out <- mread st 0 (len + 4);
              Some (Tx (vc_parent c) out)
          end
      end
  end.

(** wolfip.c:10486-10494: first live sub-interface on this link with this VID *)
Fixpoint find_vlan (p : nat) (vid : Z) (k : nat) (t : list dev) : option nat :=
  match t with
  | [] => None
  | d :: t => if vlan_dup p vid d then Some k else find_vlan p vid (S k) t
  end.
(** wolfip.c:10463-10518: which interface a received frame is processed on, and the
    frame it is processed as; [Some None] is a drop, [None] undefined behaviour. *)
Definition vlan_demux (t : list dev) (i : nat) (buf : list Z) : option (option (nat * list Z)) :=
  let len := zlen buf in
  match nth_error t i with
  | None => Some None
  | Some d =>
      if d_noneth d then Some (Some (i, buf)) else
      if len <? 14 then Some None else
      do ty <- mread buf 12 2;
      if rd16 ty 0 =? 33024 then
        if len <? 18 then Some None else
        do tci <- mread buf 14 2;
        match find_vlan i (Z.land (rd16 tci 0) 4095) 0 t with
        | None => Some None
        | Some j =>
            do macs <- mread buf 0 12;
            do buf' <- mwrite buf 4 macs;
            do fr <- mread buf' 4 (len - 4);
            Some (Some (j, fr))
        end
      else Some (Some (i, buf))
  end.

(** API histories *)
Inductive vop :=
| VCreate (p : nat) (vid pcp dei : Z)
| VDelete (i : nat)
| VGet (i : nat)
| VSetup (i : nat) (send poll noneth : bool) (mtu : Z) (mac name : list Z).
Inductive vres := RCreate (r : option nat) | RDelete (ok : bool) | RGet (r : option vcfg) | RSetup.
Definition vstep (t : list dev) (o : vop) : list dev * vres :=
  match o with
  | VCreate p vid pcp dei => let (t', r) := vlan_create t p vid pcp dei in (t', RCreate r)
  | VDelete i => let (t', r) := vlan_delete t i in (t', RDelete r)
  | VGet i => (t, RGet (vlan_get t i))
  | VSetup i a b c m mac nm => (dev_setup t i a b c m mac nm, RSetup)
  end.
Fixpoint vrun (t : list dev) (os : list vop) : list dev * list vres :=
  match os with
  | [] => (t, [])
  | o :: os => let (t, r) := vstep t o in let (t, rs) := vrun t os in (t, r :: rs)
  end.
(** wolfIP_init_static: every slot zeroed *)
Definition vinit (n : nat) : list dev := repeat dev0 n.
