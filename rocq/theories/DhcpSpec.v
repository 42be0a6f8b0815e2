(** Vocabulary for the DHCP client properties (RFC 2131), independent of the client's code. *)
From Verif Require Import Base DhcpOptSpec.

(** 32-bit big-endian number in the first four bytes of an option *)
Definition num (d : list Z) : Z := 16777216 * zget d 0 + 65536 * zget d 1 + 256 * zget d 2 + zget d 3.
(** the data of the last option with code [c] *)
Fixpoint last_opt (c : Z) (os : list opt) : option (list Z) :=
  match os with
  | [] => None
  | (c', d) :: os => match last_opt c os with Some d' => Some d' | None => if c' =? c then Some d else None end
  end.
Definition last_num (c dflt : Z) (os : list opt) : Z :=
  match last_opt c os with Some d => num d | None => dflt end.

(** A host address one may configure: not 0.0.0.0, not the limited broadcast, not
    multicast, and not the broadcast address of its own subnet. *)
Definition usable (ip mask : Z) : Prop :=
  0 < ip < 4294967295 /\ ~ (3758096384 <= ip < 4026531840) /\ (mask <> 0 -> Z.lor ip mask <> 4294967295).

(** Header of a reply addressed to a client: BOOTREPLY, magic cookie, transaction id,
    hardware address. *)
Definition reply_for (m : list Z) (len xid : Z) (mac : list Z) : Prop :=
  240 <= len /\ zget m 0 = 2 /\ num (fld m 236 4) = 1669485411 /\ num (fld m 4 4) = xid /\
  zget m 2 = 6 /\ fld m 28 6 = mac.
