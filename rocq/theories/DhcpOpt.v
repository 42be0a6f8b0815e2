(** Model of the DHCP option iterator: src/wolfip.c:8606-8787 (struct dhcp_opt_stream,
    dhcp_opt_stream_init, dhcp_opt_stream_next_region, dhcp_opt_stream_next).

    The message is the 552-byte [struct dhcp_msg] (1154-1165) as a list of bytes; pointers
    are offsets in it, every read is checked ([None] = out of bounds).  The reassembly
    buffer part_buf[257] is the list of bytes written so far; a write past 257 is [None]. *)
From Verif Require Import Base HttpUrl.

(* 1154-1165: offsets of the packed fields *)
Definition OFF_SNAME := 44. Definition OFF_FILE := 108. Definition OFF_OPTIONS := 240.
Definition SZ_SNAME := 64. Definition SZ_FILE := 128. Definition SZ_OPTIONS := 312.
Definition MSG_SIZE := 552.
Definition DHCP_HEADER_LEN := 240.

(** 8616-8637 struct dhcp_opt_stream; [o_fill] is [None] for fill == NULL, else the bytes
    part_buf[0 .. fill). *)
Record ostr := mkO { o_ptr : Z; o_end : Z; o_reg : Z; o_ov : Z; o_strict : bool;
  o_fill : option (list Z); o_part0 : bool }.

(** 8643-8661 dhcp_opt_stream_init; msg_len - DHCP_HEADER_LEN is uint32_t arithmetic *)
Definition oinit (len : Z) (strict : bool) : ostr :=
  let sp := u32 (len - DHCP_HEADER_LEN) in
  let sp := if SZ_OPTIONS <? sp then SZ_OPTIONS else sp in
  mkO OFF_OPTIONS (OFF_OPTIONS + sp) 0 0 strict None false.

Definition set_pos (st : ostr) (p e r : Z) : ostr :=
  mkO p e r (o_ov st) (o_strict st) (o_fill st) (o_part0 st).
Definition set_ptr (st : ostr) (p : Z) : ostr := set_pos st p (o_end st) (o_reg st).
Definition set_ov (st : ostr) (v : Z) : ostr :=
  mkO (o_ptr st) (o_end st) (o_reg st) v (o_strict st) (o_fill st) (o_part0 st).
Definition set_fill (st : ostr) (f : option (list Z)) : ostr :=
  mkO (o_ptr st) (o_end st) (o_reg st) (o_ov st) (o_strict st) f (o_part0 st).

(** 8665-8689 dhcp_opt_stream_next_region *)
Definition next_region (st : ostr) : option ostr :=
  if o_reg st =? 0 then
    if negb (Z.land (o_ov st) 2 =? 0) then Some (set_pos st OFF_SNAME (OFF_SNAME + SZ_SNAME) 1)
    else if negb (Z.land (o_ov st) 1 =? 0) then Some (set_pos st OFF_FILE (OFF_FILE + SZ_FILE) 2)
    else None
  else if o_reg st =? 1 then
    if negb (Z.land (o_ov st) 1 =? 0) then Some (set_pos st OFF_FILE (OFF_FILE + SZ_FILE) 2)
    else None
  else None.

(** 8704-8716: is the option in part_buf complete? *)
Definition full (f : list Z) : bool :=
  match f with _ :: l :: _ => 2 + l <=? zlen f | _ => false end.

(** 8709-8712: while (ptr < end && part_buf incomplete) *fill++ = *ptr++.
    The fuel is the number of bytes of the region, enough for the loop to stop by itself. *)
Fixpoint fill_loop (fuel : nat) (m : list Z) (p e : Z) (f : list Z) : option (Z * list Z) :=
  match fuel with
  | O => Some (p, f)
  | S fuel =>
    if (p <? e) && negb (full f) then
      do b <- rd1 m p;
      if zlen f <? 257 then fill_loop fuel m (p + 1) e (f ++ [b]) else None
    else Some (p, f)
  end.

(** What one iteration of while(1) does: return an option (code, data), return 0, return
    -1, or go round again. *)
Inductive ores := ROpt (c : Z) (d : list Z) | RZero | RErr.
Inductive iter := Again | Ret (r : ores).

Definition fail (st : ostr) : ores := if o_strict st then RErr else RZero.
(** 8779-8787 region_end *)
Definition region_end (st : ostr) : ostr * iter :=
  match next_region st with Some st' => (st', Again) | None => (st, Ret (fail st)) end.
Definition bad52 (l v : Z) : bool := negb (l =? 1) || (v <? 1) || (3 <? v).

(** 8698-8788, one iteration *)
Definition ostep (m : list Z) (st : ostr) : option (ostr * iter) :=
  match o_fill st with
  | Some f =>
    (* 8702-8739 *)
    do (p, f) <- fill_loop (Z.to_nat (o_end st - o_ptr st)) m (o_ptr st) (o_end st) f;
    let st := set_ptr st p in
    if full f then
      let c := nth 0 f 0 in let l := nth 1 f 0 in
      let st := set_fill st None in
      if o_part0 st && (c =? 52) then
        if bad52 l (nth 2 f 0) then Some (st, Ret (fail st))
        else Some (set_ov st (nth 2 f 0), Ret (ROpt c (firstn (Z.to_nat l) (skipn 2 f))))
      else Some (st, Ret (ROpt c (firstn (Z.to_nat l) (skipn 2 f))))
    else
      let st := set_fill st (Some f) in
      match next_region st with
      | Some st' => Some (st', Again)
      | None => Some (set_fill st None, Ret (fail st))
      end
  | None =>
    (* 8740-8741 *)
    if o_end st <? o_ptr st + 1 then Some (region_end st) else
    do c <- rd1 m (o_ptr st);
    (* 8743-8749: END, delivered with len 0 *)
    if c =? 255 then Some (set_ptr st (o_end st), Ret (ROpt 255 [])) else
    (* 8750-8753: pad *)
    if c =? 0 then Some (set_ptr st (o_ptr st + 1), Again) else
    (* 8754-8764: the option runs past the end of the region *)
    do cut <- (if o_end st <? o_ptr st + 2 then Some true
               else do l <- rd1 m (o_ptr st + 1); Some (o_end st <? o_ptr st + 2 + l));
    if cut : bool then
      Some (mkO (o_ptr st) (o_end st) (o_reg st) (o_ov st) (o_strict st) (Some []) (o_reg st =? 0), Again)
    else
    do l <- rd1 m (o_ptr st + 1);
    (* 8765-8778 *)
    do d <- mread m (o_ptr st + 2) l;
    if (o_reg st =? 0) && (c =? 52) then
      if negb (l =? 1) then Some (region_end st) else
      do v <- rd1 m (o_ptr st + 2);
      if (v <? 1) || (3 <? v) then Some (region_end st)
      else Some (set_ptr (set_ov st v) (o_ptr st + 2 + l), Ret (ROpt c d))
    else Some (set_ptr st (o_ptr st + 2 + l), Ret (ROpt c d))
  end.

(** 8694-8788 dhcp_opt_stream_next *)
Fixpoint onext (fuel : nat) (m : list Z) (st : ostr) : option (ostr * ores) :=
  match fuel with
  | O => None
  | S fuel =>
    do (st, i) <- ostep m st;
    match i with Again => onext fuel m st | Ret r => Some (st, r) end
  end.
Definition FUEL : nat := Z.to_nat 5000.

(** The loop every caller runs (e.g. 8818-8830): collect options until END (reported as
    [(os, Some true)]), until 0 ([Some false]) or until -1 ([None]). *)
Fixpoint oloop (fuel : nat) (m : list Z) (st : ostr) : option (list (Z * list Z) * option bool) :=
  match fuel with
  | O => None
  | S fuel =>
    do (st, r) <- onext FUEL m st;
    match r with
    | RErr => Some ([], None)
    | RZero => Some ([], Some false)
    | ROpt c d =>
      if c =? 255 then Some ([], Some true)
      else do (os, e) <- oloop fuel m st; Some ((c, d) :: os, e)
    end
  end.
Definition owalk (m : list Z) (len : Z) (strict : bool) : option (list (Z * list Z) * option bool) :=
  oloop FUEL m (oinit len strict).
