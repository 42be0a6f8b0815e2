(** Specification of TFTP requests and option acknowledgements (RFC 1350, 2347, 2348,
    2349, 7440), independent of the parser. *)
From Verif Require Import Base.

(** ASCII case folding and comparison without case. *)
Definition lower (c : Z) : Z := if (65 <=? c) && (c <=? 90) then c + 32 else c.
Definition nocase (a b : list Z) : Prop := map lower a = map lower b.
(** A string without 0, and its representation on the wire. *)
Definition nonul (s : list Z) : Prop := Forall (fun c => c <> 0) s.
Definition cstr (s : list Z) : list Z := s ++ [0].
(** Decimal numerals. *)
Definition digits (s : list Z) : Prop := Forall (fun c => 48 <= c <= 57) s.
Definition decval (s : list Z) : Z := fold_left (fun v c => 10 * v + (c - 48)) s 0.
Definition numeral (s : list Z) (v : Z) : Prop := s <> [] /\ digits s /\ decval s = v.

(** ** File names *)
Definition sep (c : Z) : Prop := c = 47 \/ c = 92.
(** ".." is a path component of the name: it stands between separators or at an end. *)
Definition has_dotdot (name : list Z) : Prop :=
  exists a b, name = a ++ [46; 46] ++ b /\
    (a = [] \/ exists a' x, a = a' ++ [x] /\ sep x) /\ (b = [] \/ exists y b', b = y :: b' /\ sep y).
(** Relative, without drive or stream, and not leading out of the directory. *)
Definition confined (name : list Z) : Prop :=
  name <> [] /\ (forall c, hd_error name = Some c -> ~ sep c) /\ ~ In 58 name /\ ~ has_dotdot name.

(** ** Options *)
Inductive okind := KBlk | KTmo | KTsz | KWin.
Definition keyword (k : okind) : list Z :=
  match k with
  | KBlk => [98; 108; 107; 115; 105; 122; 101] (* blksize *)
  | KTmo => [116; 105; 109; 101; 111; 117; 116] (* timeout *)
  | KTsz => [116; 115; 105; 122; 101] (* tsize *)
  | KWin => [119; 105; 110; 100; 111; 119; 115; 105; 122; 101] (* windowsize *)
  end.
Definition bit_of (k : okind) : Z := match k with KBlk => 0 | KTmo => 1 | KTsz => 2 | KWin => 3 end.
Definition opt_range (k : okind) (v : Z) : Prop :=
  match k with KBlk => 8 <= v <= 1428 | KTmo => 1 <= v <= 255 | KTsz => 0 <= v <= 4294967295 | KWin => 1 <= v <= 8 end.
(** The option (key, value) says "kind = v", with a value in range. *)
Definition says (kv : list Z * list Z) (k : okind) (v : Z) : Prop :=
  nocase (fst kv) (keyword k) /\ numeral (snd kv) v /\ opt_range k v.
Definition wire (kv : list Z * list Z) : list Z := cstr (fst kv) ++ cstr (snd kv).
(** The value given to a kind by a list of options: the last one counts. *)
Inductive given (k : okind) : list (list Z * list Z) -> Z -> Prop :=
| given_here os kv v : says kv k v -> given k (os ++ [kv]) v
| given_before os kv v : given k os v -> (forall v', ~ says kv k v') -> given k (os ++ [kv]) v.
Definition mentioned (k : okind) (os : list (list Z * list Z)) : Prop := exists v, given k os v.

Definition w16 (v : Z) : list Z := [v / 256; v mod 256].
(** [buf] is a read or write request. *)
Definition request (buf : list Z) (op : Z) (name : list Z) (os : list (list Z * list Z)) : Prop :=
  exists mode, (op = 1 \/ op = 2) /\ nonul name /\ 0 < zlen name < 128 /\ confined name /\
    nocase mode [111; 99; 116; 101; 116] /\ (forall kv, In kv os -> exists k v, says kv k v) /\
    buf = w16 op ++ cstr name ++ cstr mode ++ flat_map wire os.
(** [buf] acknowledges the options [os], all of which are in the set [asked]. *)
Definition option_ack (buf : list Z) (asked : okind -> Prop) (os : list (list Z * list Z)) : Prop :=
  (forall kv, In kv os -> exists k v, says kv k v /\ asked k) /\ buf = w16 6 ++ flat_map wire os.
