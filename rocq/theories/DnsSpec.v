(** Specification of DNS names and messages (RFC 1035 sections 3.1, 4.1), independent
    of the client's code. *)
From Verif Require Import Base.

(** Big-endian fields of a message. *)
Definition w16 (p : list Z) (i : Z) : Z := 256 * zget p i + zget p (i + 1).
Definition w32 (p : list Z) (i : Z) : Z := 65536 * w16 p i + w16 p (i + 2).
(** the [n] bytes of [p] from [i] *)
Definition sub (p : list Z) (i n : Z) : list Z := firstn (Z.to_nat n) (skipn (Z.to_nat i) p).

(** [dname p pos ls]: the name at [pos] of message [p] is the list of labels [ls].
    A compression pointer must point backwards.  Length bytes 64-191 are reserved in
    RFC 1035 and read as plain lengths. *)
Inductive dname (p : list Z) : Z -> list (list Z) -> Prop :=
| DN_end pos : 0 <= pos < zlen p -> zget p pos = 0 -> dname p pos []
| DN_label pos ls : 0 <= pos < zlen p -> 1 <= zget p pos < 192 -> pos + 1 + zget p pos <= zlen p ->
    dname p (pos + 1 + zget p pos) ls -> dname p pos (sub p (pos + 1) (zget p pos) :: ls)
| DN_ptr pos ls : 0 <= pos -> pos + 1 < zlen p -> 192 <= zget p pos ->
    256 * (zget p pos - 192) + zget p (pos + 1) < pos ->
    dname p (256 * (zget p pos - 192) + zget p (pos + 1)) ls -> dname p pos ls.
(** [name_end p pos e]: the encoded name starting at [pos] ends just before [e]. *)
Inductive name_end (p : list Z) : Z -> Z -> Prop :=
| NE_end pos : 0 <= pos < zlen p -> zget p pos = 0 -> name_end p pos (pos + 1)
| NE_ptr pos : 0 <= pos -> pos + 1 < zlen p -> 192 <= zget p pos -> name_end p pos (pos + 2)
| NE_label pos e : 0 <= pos < zlen p -> 1 <= zget p pos < 192 -> pos + 1 + zget p pos <= zlen p ->
    name_end p (pos + 1 + zget p pos) e -> name_end p pos e.

(** Presentation form: labels separated by dots. *)
Fixpoint dotted (ls : list (list Z)) : list Z :=
  match ls with [] => [] | [l] => l | l :: ls => l ++ [46] ++ dotted ls end.
(** Wire form without compression. *)
Fixpoint wire (ls : list (list Z)) : list Z :=
  match ls with [] => [0] | l :: ls => zlen l :: l ++ wire ls end.
Definition label_ok (l : list Z) : Prop := 1 <= zlen l <= 63 /\ ~ In 46 l.

(** [is_rr p pos n r]: one of the [n] resource records starting at [pos] has its fixed
    part (type, class, ttl, rdlength) at [r]. *)
Inductive is_rr (p : list Z) : Z -> Z -> Z -> Prop :=
| RR_here pos n r : 0 < n -> name_end p pos r -> r + 10 + w16 p (r + 8) <= zlen p -> is_rr p pos n r
| RR_next pos n r0 r : 0 < n -> name_end p pos r0 -> r0 + 10 + w16 p (r0 + 8) <= zlen p ->
    is_rr p (r0 + 10 + w16 p (r0 + 8)) (n - 1) r -> is_rr p pos n r.

(** Case-insensitive equality of bytes (ASCII letters). *)
Definition lower (c : Z) : Z := if (65 <=? c) && (c <=? 90) then c + 32 else c.
