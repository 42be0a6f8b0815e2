(** Specification of a DHCP option stream (RFC 2132 section 2 and 9.3), independent of
    the client's code. *)
From Verif Require Import Base.

Definition opt : Type := (Z * list Z)%type.
(** How a stream ends: at an END option, by running out of bytes between two options, or
    in the middle of an option. *)
Inductive fin := FEnd | FOut | FCut.

(** [tlv s os e]: the bytes [s] are read as the options [os], ending with [e].
    0 is padding, 255 is END, anything else is a code byte, a length byte, data. *)
Inductive tlv : list Z -> list opt -> fin -> Prop :=
| T_out : tlv [] [] FOut
| T_pad s os e : tlv s os e -> tlv (0 :: s) os e
| T_end s : tlv (255 :: s) [] FEnd
| T_opt c d s os e : c <> 0 -> c <> 255 -> tlv s os e -> tlv (c :: zlen d :: d ++ s) ((c, d) :: os) e
| T_cut1 c : c <> 0 -> c <> 255 -> tlv [c] [] FCut
| T_cut2 c l d : c <> 0 -> c <> 255 -> zlen d < l -> tlv (c :: l :: d) [] FCut.

(** Writing options: [enc os] has no padding and no END. *)
Definition enc1 (o : opt) : list Z := fst o :: zlen (snd o) :: snd o.
Definition enc (os : list opt) : list Z := concat (map enc1 os).
Definition opt_ok (o : opt) : Prop :=
  1 <= fst o <= 254 /\ zlen (snd o) <= 255 /\ Forall byte (snd o).

(** RFC 2132 section 9.3: bit 1 of option 52 says that the 'file' field carries options,
    bit 2 that the 'sname' field does; [overload v sname file] is what follows the options
    field, in the order this client reads it. *)
Definition overload (v : Z) (sname file : list Z) : list Z :=
  (if (v =? 2) || (v =? 3) then sname else []) ++ (if (v =? 1) || (v =? 3) then file else []).

(** The fields of a reply of [len] bytes in a 552-byte buffer. *)
Definition fld (m : list Z) (a n : Z) : list Z := firstn (Z.to_nat n) (skipn (Z.to_nat a) m).
Definition f_sname (m : list Z) := fld m 44 64.
Definition f_file (m : list Z) := fld m 108 128.
Definition f_options (m : list Z) (len : Z) := fld m 240 (Z.min (len - 240) 312).

Definition infix (x s : list Z) : Prop := exists a b, s = a ++ x ++ b.
