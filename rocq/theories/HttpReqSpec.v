(** What an HTTP request is, for the server (C64, C65): specification only.
    Nothing here refers to the model. *)
From Coq Require Import ZArith List.
Import ListNotations.
Open Scope Z_scope.
From Verif Require Import Base HttpUrlProps.

Definition SP : Z := 32. Definition CR : Z := 13. Definition LF : Z := 10.
Definition has_no (c : Z) (s : list Z) : Prop := ~ In c s.
(** no CR LF pair inside the line *)
Definition no_crlf (s : list Z) : Prop := forall a b, s <> a ++ CR :: LF :: b.

(** [line] is the header field [name] (compared without case) with value [v]:
    name, colon, blanks, value. *)
Definition lower (c : Z) : Z := if (65 <=? c) && (c <=? 90) then c + 32 else c.
Definition blank (c : Z) : Prop := c = 32 \/ c = 9.
Definition field (name line v : list Z) : Prop :=
  exists n ws, line = n ++ 58 :: ws ++ v /\ map lower n = map lower name /\ Forall blank ws /\
    match v with [] => True | c :: _ => ~ blank c end.

(** [v] is the decimal numeral of [k]: one digit or more, leading zeros allowed. *)
Fixpoint value10 (v : list Z) (acc : Z) : Z := match v with [] => acc | c :: v' => value10 v' (acc * 10 + (c - 48)) end.
Definition decimal (v : list Z) (k : Z) : Prop :=
  v <> [] /\ Forall (fun c => 48 <= c <= 57) v /\ value10 v 0 = k.

Definition content_length : list Z := [99;111;110;116;101;110;116;45;108;101;110;103;116;104].
Definition transfer_encoding : list Z := [116;114;97;110;115;102;101;114;45;101;110;99;111;100;105;110;103].

(** The declared framing is the body's: no Transfer-Encoding; and either no
    Content-Length and no body, or exactly one Content-Length, equal to the size. *)
Definition framed (lines : list (list Z)) (body : list Z) : Prop :=
  (forall l v, In l lines -> ~ field transfer_encoding l v) /\
  ((forall l v, In l lines -> ~ field content_length l v) /\ body = [] \/
   exists l1 l v l2, lines = l1 ++ l :: l2 /\ field content_length l v /\ decimal v (zlen body) /\
     forall l' v', In l' (l1 ++ l2) -> ~ field content_length l' v').

(** Lines joined by CR LF. *)
Fixpoint join (ls : list (list Z)) : list Z :=
  match ls with [] => [] | l :: ls' => match ls' with [] => l | _ => l ++ CR :: LF :: join ls' end end.

(** A request as the application sees it. *)
Record view := View { v_method : list Z; v_path : list Z; v_query : list Z; v_headers : list Z; v_body : list Z }.

(** The request target: raw path, and what follows the first '?'. *)
Definition target_of (target raw query : list Z) : Prop :=
  has_no 63 raw /\ (target = raw /\ query = [] \/ target = raw ++ 63 :: query).

(** The bytes [data] are the request [v], with its sizes within the server's limits. *)
Definition request_bytes (data : list Z) (v : view) : Prop :=
  exists target raw version eol lines fin,
    data = v_method v ++ SP :: target ++ SP :: version ++ CR :: eol ::
           flat_map (fun l => l ++ [CR; LF]) lines ++ fin /\
    (fin = CR :: LF :: v_body v \/ fin = [] /\ v_body v = []) /\
    (* request line *)
    has_no SP (v_method v) /\ has_no SP target /\ has_no CR version /\
    has_no 0 (v_method v) /\ has_no 0 target /\ has_no 0 version /\
    zlen (v_method v) <= 7 /\
    target_of target raw (v_query v) /\ zlen raw <= 127 /\ pct_decode raw = inr (v_path v) /\
    has_no CR (v_path v) /\ has_no LF (v_path v) /\
    zlen (v_query v) <= 255 /\ has_no CR (v_query v) /\ has_no LF (v_query v) /\
    (* header lines *)
    Forall (fun l => l <> [] /\ no_crlf l /\ has_no 0 l) lines /\
    v_headers v = join lines /\ zlen (v_headers v) <= 1023 /\
    (* body *)
    framed lines (v_body v) /\ zlen (v_body v) <= 1024.

Definition GET : list Z := [71;69;84].
Definition POST : list Z := [80;79;83;84].

(** A C string: the bytes before the first NUL. *)
Fixpoint cstr (s : list Z) : list Z := match s with [] => [] | c :: s' => if c =? 0 then [] else c :: cstr s' end.

(** Pages, in the order they were registered. *)
Inductive page := Handler (h : Z) | Static (content : list Z).
Definition pages := list (list Z * page).
Fixpoint lookup (ps : pages) (path : list Z) : option page :=
  match ps with
  | [] => None
  | (p, g) :: ps' => if list_eq_dec Z.eq_dec p path then Some g else lookup ps' path
  end.

(** "k1=v1&k2=v2": the pieces between '&'. *)
Fixpoint pieces (s : list Z) : list (list Z) :=
  match s with
  | [] => [[]]
  | c :: s' => if c =? 38 then [] :: pieces s'
               else match pieces s' with p :: ps => (c :: p) :: ps | [] => [[c]] end
  end.
(** [s] says [name]=[v], and it is the first piece that names [name]. *)
Definition first_arg (s name v : list Z) : Prop :=
  exists before after, pieces s = before ++ (name ++ 61 :: v) :: after /\ has_no 61 name /\
    forall p w, In p before -> p <> name ++ 61 :: w.
