(** Specification of TCP header options (RFC 9293 section 3.1, RFC 7323, RFC 2018),
    independent of the parser's code. *)
From Verif Require Import Base.

(** [options b l]: the option area [b] contains the options [l] (kind, data).  NOP (1)
    is skipped, END (0) ends the list, and an option whose length byte is missing,
    below 2 or runs past the area ends the list. *)
Inductive options : list Z -> list (Z * list Z) -> Prop :=
| O_nil : options [] []
| O_end r : options (0 :: r) []
| O_nop r l : options r l -> options (1 :: r) l
| O_opt k n d r l : k <> 0 -> k <> 1 -> n = 2 + zlen d -> options r l -> options (k :: n :: d ++ r) ((k, d) :: l)
| O_short k : k <> 0 -> k <> 1 -> options [k] []
| O_bad k n r : k <> 0 -> k <> 1 -> n < 2 \/ zlen r < n - 2 -> options (k :: n :: r) [].

(** The value given by the last option for which [f] is defined. *)
Fixpoint pick {A} (f : Z * list Z -> option A) (l : list (Z * list Z)) : option A :=
  match l with
  | [] => None
  | o :: l' => match pick f l' with Some v => Some v | None => f o end
  end.

Definition val16 (d : list Z) : Z := 256 * zget d 0 + zget d 1.
Definition val32 (d : list Z) (i : Z) : Z :=
  16777216 * zget d i + 65536 * zget d (i + 1) + 256 * zget d (i + 2) + zget d (i + 3).

(** Maximum segment size: kind 2, two bytes of data; zero is not a usable MSS. *)
Definition mss_of (o : Z * list Z) : option Z :=
  if (fst o =? 2) && (zlen (snd o) =? 2) && negb (val16 (snd o) =? 0) then Some (val16 (snd o)) else None.
(** Window scale: kind 3, one byte, values above 14 are used as 14 (RFC 7323 2.3). *)
Definition ws_of (o : Z * list Z) : option Z :=
  if (fst o =? 3) && (zlen (snd o) =? 1) then Some (Z.min 14 (zget (snd o) 0)) else None.
(** SACK permitted: kind 4, no data. *)
Definition sackok_of (o : Z * list Z) : bool := (fst o =? 4) && (zlen (snd o) =? 0).
(** Timestamps: kind 8, TSval and TSecr. *)
Definition ts_of (o : Z * list Z) : option (Z * Z) :=
  if (fst o =? 8) && (zlen (snd o) =? 8) then Some (val32 (snd o) 0, val32 (snd o) 4) else None.
(** SACK: kind 5, a whole positive number of 8-byte (left edge, right edge) pairs. *)
Fixpoint pairs8 (d : list Z) : list (Z * Z) :=
  match d with
  | a :: b :: c :: e :: f :: g :: h :: i :: r => (val32 [a; b; c; e] 0, val32 [f; g; h; i] 0) :: pairs8 r
  | _ => []
  end.
Definition sack_of (o : Z * list Z) : list (Z * Z) :=
  if (fst o =? 5) && (zlen (snd o) mod 8 =? 0) then pairs8 (snd o) else [].
(** A block is non-empty: its right edge is after its left edge in sequence order. *)
Definition block_ok (b : Z * Z) : bool :=
  (0 <? (snd b - fst b) mod 4294967296) && ((snd b - fst b) mod 4294967296 <=? 2147483648).

(** What a receiver learns from the options: the last MSS, window scale and
    timestamps, SACK-permitted, and the first four non-empty SACK blocks. *)
Record learnt := Learnt { l_mss : option Z; l_ws : option Z; l_sackok : bool; l_ts : option (Z * Z); l_sack : list (Z * Z) }.
Definition learn (l : list (Z * list Z)) : learnt :=
  Learnt (pick mss_of l) (pick ws_of l) (existsb sackok_of l) (pick ts_of l)
         (firstn 4 (filter block_ok (flat_map sack_of l))).
