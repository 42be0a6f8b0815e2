(** Model of the dotted-quad conversions.  Source: /repo/wolfip.h:566-605. *)
From Verif Require Import Base.

(** atou, wolfip.h:566-574.  [s] is the memory from the pointer to the end of the
    object; running off its end is [None]. *)
Fixpoint atou (s : list Z) (ret : Z) : option Z :=
  match s with
  | [] => None
  | c :: s => if (48 <=? c) && (c <=? 57) then atou s (u32 (u32 (ret * 10) + (c - 48))) else Some ret
  end.

(** while (ip[j] != '.' && ip[j] != '\0') j++;  wolfip.h:583. The memory from the stopping point on. *)
Fixpoint skip_octet (s : list Z) : option (list Z) :=
  match s with
  | [] => None
  | c :: s' => if (c =? 46) || (c =? 0) then Some s else skip_octet s'
  end.

(** atoip4, wolfip.h:576-588.  [i] = octets still to do counted from 4. *)
Fixpoint atoip4_loop (n : nat) (s : list Z) (ret : Z) : option Z :=
  match n with
  | O => Some ret
  | S m =>
      do x <- atou s 0;
      let ret := Z.lor ret (u32 (Z.shiftl x (8 * Z.of_nat m))) in
      do s <- skip_octet s;
      match s with
      | [] => None
      | c :: s => if c =? 0 then Some ret else atoip4_loop m s ret
      end
  end.
Definition atoip4 (s : list Z) : option Z := atoip4_loop 4 s 0.

(** iptoa, wolfip.h:590-605.  [buf] is the caller's buffer, [j] the write index;
    a write outside the buffer is [None]. *)
Definition wr (buf : list Z) (j c : Z) : option (list Z) := mwrite buf j [c].
Fixpoint iptoa_loop (n : nat) (ip : Z) (buf : list Z) (j : Z) : option (list Z) :=
  match n with
  | O => wr buf j 0
  | S m =>
      let x := Z.land (Z.shiftr ip (8 * Z.of_nat m)) 255 in
      do (buf, j) <- (if 99 <? x then do b <- wr buf j (x / 100 + 48); Some (b, j + 1) else Some (buf, j));
      do (buf, j) <- (if 9 <? x then do b <- wr buf j ((x / 10) mod 10 + 48); Some (b, j + 1) else Some (buf, j));
      do buf <- wr buf j (x mod 10 + 48);
      let j := j + 1 in
      do (buf, j) <- (if (0 <? Z.of_nat m) then do b <- wr buf j 46; Some (b, j + 1) else Some (buf, j));
      iptoa_loop m ip buf j
  end.
Definition iptoa (ip : Z) (buf : list Z) : option (list Z) :=
  do buf <- wr buf 0 0; iptoa_loop 4 ip buf 0.
