(** Histories of the packet FIFO and the specification they are compared with.

    The specification is a plain list of entries, oldest first.  It mentions
    no positions, alignment, wrap markers or storage. *)
From Verif Require Import Base Fifo.

(** Operations callers perform on a socket's packet FIFO. *)
Inductive op :=
| OPush (data : list Z)            (* fifo_push *)
| OPop                             (* fifo_pop and read of the returned packet *)
| OPeek                            (* fifo_peek and read of the returned packet *)
| OWalk                            (* fifo_peek, then fifo_next until NULL *)
| OUpdate (k : nat) (flags time : Z) (data : list Z)
                                   (* rewrite flags, time and bytes of the k-th
                                      queued packet through its pointer *)
| OCan (len : Z)                   (* fifo_can_push_len *)
| OMax (base cap : Z).             (* fifo_max_push_payload *)

Inductive out :=
| RInt (r : Z)
| REntry (e : option entry)
| RList (l : list entry)
| RBool (b : bool).

(** ** Specification *)
Definition list_upd {A} (k : nat) (x : A) (l : list A) : list A :=
  firstn k l ++ match skipn k l with [] => [] | _ :: t => x :: t end.

Inductive spec_step : list entry -> op -> out -> list entry -> Prop :=
| SPushOk q d : spec_step q (OPush d) (RInt 0) (q ++ [{| en_flags := 0; en_time := 0; en_data := d |}])
| SPushFull q d : spec_step q (OPush d) (RInt (-1)) q
| SPopEmpty : spec_step [] OPop (REntry None) []
| SPop x q : spec_step (x :: q) OPop (REntry (Some x)) q
| SPeekEmpty : spec_step [] OPeek (REntry None) []
| SPeek x q : spec_step (x :: q) OPeek (REntry (Some x)) (x :: q)
| SWalk q : spec_step q OWalk (RList q) q
| SUpd q k fl tm d x : nth_error q k = Some x -> zlen d = zlen (en_data x) ->
    spec_step q (OUpdate k fl tm d) (RInt 0)
      (list_upd k {| en_flags := u32 fl; en_time := u32 tm; en_data := d |} q)
| SUpdNone q k fl tm d : nth_error q k = None -> spec_step q (OUpdate k fl tm d) (RInt (-1)) q
| SUpdLen q k fl tm d x : nth_error q k = Some x -> zlen d <> zlen (en_data x) ->
    spec_step q (OUpdate k fl tm d) (RInt (-1)) q
| SCan q len b : spec_step q (OCan len) (RBool b) q
| SMax q base cap r : spec_step q (OMax base cap) (RInt r) q.

Inductive spec_run : list entry -> list op -> list out -> list entry -> Prop :=
| SRnil q : spec_run q [] [] q
| SRcons q o r q' os rs q'' : spec_step q o r q' -> spec_run q' os rs q'' ->
    spec_run q (o :: os) (r :: rs) q''.

(** ** Implementation *)
(** Descriptor pointer of the k-th queued packet, obtained as callers do. *)
Fixpoint nth_desc (k : nat) (f : fifo) (desc : option Z) : option (option Z) :=
  match k, desc with
  | _, None => Some None
  | O, Some p => Some (Some p)
  | S k, Some p => do nx <- fifo_next f p; nth_desc k f nx
  end.

(** One operation.  [None] is undefined behaviour.  [OUpdate] refuses a
    different length because no caller changes the length in place. *)
Definition impl_step (f : fifo) (o : op) : option (fifo * out) :=
  match o with
  | OPush d => do (f', r) <- fifo_push f d; Some (f', RInt r)
  | OPop => do (f', p) <- fifo_pop f;
            match p with
            | None => Some (f', REntry None)
            | Some p => do e <- load_entry f' p; Some (f', REntry (Some e))
            end
  | OPeek => let '(f', p) := fifo_peek f in
             match p with
             | None => Some (f', REntry None)
             | Some p => do e <- load_entry f' p; Some (f', REntry (Some e))
             end
  | OWalk => do (f', l) <- fifo_walk f; Some (f', RList l)
  | OUpdate k fl tm d =>
      let '(f', p) := fifo_peek f in
      do p <- nth_desc k f' p;
      match p with
      | None => Some (f', RInt (-1))
      | Some p =>
          do e <- load_desc f' p;
          if d_len e =? zlen d then do f'' <- fifo_update f' p fl tm d; Some (f'', RInt 0)
          else Some (f', RInt (-1))
      end
  | OCan len => Some (f, RBool (fifo_can_push_len f len))
  | OMax base cap => Some (f, RInt (fifo_max_push_payload f base cap))
  end.

Fixpoint impl_run (f : fifo) (os : list op) : option (fifo * list out) :=
  match os with
  | [] => Some (f, [])
  | o :: os =>
      do (f', r) <- impl_step f o;
      do (f'', rs) <- impl_run f' os;
      Some (f'', r :: rs)
  end.

(** Sizes are representable: a push is below 2^32 - 16 bytes (callers bound it
    by LINK_MTU). *)
Definition op_ok (o : op) : Prop :=
  match o with OPush d => DESC + zlen d < 2^32 | _ => True end.

(** Storage sizes wolfIP uses: a multiple of 4, at least one descriptor, at
    most 2^31 (RXBUF_SIZE = 20480 and TXBUF_SIZE = 32768 in config.h:20-21). *)
Definition size_ok (size : Z) : Prop := size mod 4 = 0 /\ DESC <= size <= 2^31.

(** Every payload pushed has a length divisible by 4. *)
Definition op_aligned (o : op) : Prop :=
  match o with OPush d => zlen d mod 4 = 0 | _ => True end.

(** The next free position never lies in the last three bytes of the storage. *)
Definition never_ragged (f0 : fifo) (os : list op) : Prop :=
  forall n f outs, impl_run f0 (firstn n os) = Some (f, outs) ->
    ~ (f_size f - 4 < f_head f < f_size f).
