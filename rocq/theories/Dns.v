(** DNS client.
    Source: /repo/src/wolfip.c:10609-11158.
    Simplifications: a packet is the list of the bytes received (dns_len of them, at most
    512), so bounds are checked against what arrived rather than against the 512 byte
    array; the query is built as a list (its length is bounded in DnsProps.v); results of
    the socket calls, of the random source and of arming the timer are inputs; a user
    callback is an identifier; the release of the UDP source port on abort is not
    represented. *)
From Verif Require Import Base Arp.

(** checked byte read, [None] = out of bounds *)
Definition bget (p : list Z) (i : Z) : option Z := if (0 <=? i) && (i <? zlen p) then Some (zget p i) else None.

(** wolfip.c:10713-10742 dns_skip_name; [n] is the variable loop.  -1 is [Some None]. *)
Definition skip_done (p : list Z) (n pos : Z) : option (option Z) := if zlen p <=? n then Some None else Some (Some pos).
Fixpoint skip_loop (fuel : nat) (p : list Z) (n pos : Z) : option (option Z) :=
  if pos <? zlen p then
    match fuel with
    | O => Some None (* loop++ < len fails, loop = len + 1 *)
    | S fuel =>
        let n := n + 1 in
        do c <- bget p pos;
        let pos := pos + 1 in
        if c =? 0 then skip_done p n pos else
        if Z.land c 192 =? 192 then
          if zlen p <=? pos then Some None else skip_done p n (pos + 1)
        else
          let pos := pos + c in
          if zlen p <? pos then Some None else skip_loop fuel p n pos
    end
  else skip_done p n pos.
Definition dns_skip_name (p : list Z) (offset : Z) : option (option Z) := skip_loop (length p) p 0 offset.

(** wolfip.c:10775-10821 dns_copy_name; [o], [out] are the C variables, -1 is [Some None] *)
Fixpoint copy_loop (fuel : nat) (p : list Z) (pos o : Z) (out : list Z) : option (option (list Z)) :=
  match fuel with
  | O => Some None
  | S fuel =>
      if pos <? zlen p then
        do c <- bget p pos;
        if c =? 0 then
          if zlen out <=? o then Some None else do out <- mwrite out o [0]; Some (Some out)
        else if Z.land c 192 =? 192 then
          if zlen p <=? pos + 1 then Some None else
          do d <- bget p (pos + 1);
          let ptr := Z.lor (Z.shiftl (Z.land c 63) 8) d in
          if pos <=? ptr then Some None else copy_loop fuel p ptr o out
        else
          let pos := pos + 1 in
          if zlen p <? pos + c then Some None else
          if negb (o =? 0) && (zlen out <=? o + 1) then Some None else
          do out <- (if negb (o =? 0) then mwrite out o [46] else Some out);
          let o := if negb (o =? 0) then o + 1 else o in
          if zlen out <=? o + c then Some None else
          do l <- mread p pos c;
          do out <- mwrite out o l;
          copy_loop fuel p (pos + c) (o + c) out
      else Some None
  end.
Definition dns_copy_name (p : list Z) (offset : Z) (out : list Z) : option (option (list Z)) := copy_loop (length p) p offset 0 out.

(** wolfip.c:10744-10751 *)
Definition dns_tolower (c : Z) : Z := if (65 <=? c) && (c <=? 90) then c - 65 + 97 else c.
(** wolfip.c:10761-10764 the comparison loop over the name bytes *)
Fixpoint name_eq (a b : list Z) : bool :=
  match a, b with
  | [], [] => true
  | x :: a, y :: b => (dns_tolower x =? dns_tolower y) && name_eq a b
  | _, _ => false
  end.
Fixpoint bytes_eq (a b : list Z) : bool :=
  match a, b with [], [] => true | x :: a, y :: b => (x =? y) && bytes_eq a b | _, _ => false end.
(** wolfip.c:10753-10773 dns_question_matches; [query] is dns_query_buf[0..dns_query_len) *)
Definition dns_question_matches (query p : list Z) (offset : Z) : option bool :=
  let want_len := zlen query - 12 in
  let name_len := want_len - 4 in
  if name_len <=? 0 then Some false else
  if (offset <? 0) || (zlen p - offset <? want_len) then Some false else
  do a <- mread p offset name_len;
  do b <- mread query 12 name_len;
  if negb (name_eq a b) then Some false else
  do a <- mread p (offset + name_len) 4;
  do b <- mread query (12 + name_len) 4;
  Some (bytes_eq a b).

(** wolfip.c:10665-10680 dns_write_u8 *)
Definition dns_write_u8 (v : Z) : list Z :=
  let h := if 100 <=? v then [48 + v / 100] else [] in
  let v := if 100 <=? v then v mod 100 else v in
  let two := (10 <=? v) || (negb (zlen h =? 0)) in
  let t := if two then [48 + v / 10] else [] in
  let v := if two then v mod 10 else v in
  h ++ t ++ [48 + v].
(** wolfip.c:10682-10711 dns_format_ptr_name with len = 128: the C string built *)
Definition ptr_suffix : list Z := [105;110;45;97;100;100;114;46;97;114;112;97]. (* in-addr.arpa *)
Definition dns_format_ptr_name (ip : Z) : option (list Z) :=
  let octet k := u8 (Z.land (Z.shiftr ip (8 * k)) 255) in
  let add r k := match r with
                 | None => None
                 | Some s => if 128 <=? zlen s + 3 then None else
                             let s := s ++ dns_write_u8 (octet k) in
                             if 128 <=? zlen s + 1 then None else Some (s ++ [46])
                 end in
  match fold_left add [0; 1; 2; 3] (Some []) with
  | None => None
  | Some s => if 128 <=? zlen s + 13 then None else Some (s ++ ptr_suffix)
  end.

(** wolfip.c:11058-11094: encode a C string (no NUL inside) as labels.
    [None] is the -22 return. *)
Fixpoint take_label (s : list Z) : list Z * option (list Z) := (* label, rest after the dot *)
  match s with
  | [] => ([], None)
  | c :: s => if c =? 46 then ([], Some s) else let (l, r) := take_label s in (c :: l, r)
  end.
Fixpoint enc_loop (fuel : nat) (s : list Z) (tok_len : Z) (acc : list Z) : option (list Z) :=
  match s with
  | [] => Some acc
  | _ =>
      match fuel with
      | O => None
      | S fuel =>
          let (l, r) := take_label s in
          let label_len := zlen l in
          if label_len =? 0 then None else
          if 63 <? label_len then None else
          if 255 <? tok_len + label_len + 1 then None else
          let acc := acc ++ label_len :: l in
          match r with
          | None => Some acc
          | Some s => enc_loop fuel s (tok_len + label_len + 1) acc
          end
      end
  end.
Definition dns_encode_name (s : list Z) : option (list Z) :=
  match enc_loop (length s) s 0 [] with Some a => Some (a ++ [0]) | None => None end.

(** Client state, wolfip.c:1454-1468.  [q_buf] = dns_query_buf[0..dns_query_len). *)
Record dnsc := { q_id : Z; q_type : Z; q_buf : list Z; q_retry : Z; q_timer : bool; cb_a : option Z; cb_ptr : option Z }.
Definition dns_init : dnsc := {| q_id := 0; q_type := 0; q_buf := []; q_retry := 0; q_timer := false; cb_a := None; cb_ptr := None |}.
(** wolfip.c:10881-10899 dns_abort_query *)
Definition dns_abort (s : dnsc) : dnsc := dns_init.

(** What the client does to the outside world. *)
Inductive dev_out := Sent (q : list Z) | CallA (cb ip : Z) | CallPtr (cb : Z) (name : list Z).
(** Inputs of a lookup: is a server configured, is a socket available, does connect
    succeed, does the first send succeed, does arming the timer succeed. *)
Record denv := { e_server : bool; e_sock : bool; e_conn : bool; e_send : bool; e_timer : bool }.

(** wolfip.c:11020-11121 dns_send_query; [rnd] is wolfIP_getrandom().
    Result: state, return code, outputs. *)
Definition dns_send_query (s : dnsc) (name : list Z) (qtype rnd : Z) (e : denv) : dnsc * Z * list dev_out :=
  if 255 <? zlen name then (s, -22, []) else
  if negb (e_server e) then (s, -101, []) else
  if negb (q_id s =? 0) then (s, -16, []) else
  if negb (e_sock e) then (s, -1, []) else
  let id := Z.land rnd 65535 in
  let id := if id =? 0 then 1 else id in
  match dns_encode_name name with
  | None => (dns_abort s, -22, [])
  | Some w =>
      let q := be16 id ++ be16 256 ++ be16 1 ++ be16 0 ++ be16 0 ++ be16 0 ++ w ++ be16 qtype ++ be16 1 in
      if negb (e_conn e) then (dns_abort s, -1, []) else
      if negb (e_send e) then (dns_abort s, -1, []) else
      ({| q_id := id; q_type := if qtype =? 12 then 2 else 1; q_buf := q; q_retry := 0; q_timer := e_timer e; cb_a := cb_a s; cb_ptr := cb_ptr s |}, 0, [Sent q])
  end.
(** wolfip.c:11123-11138 nslookup *)
Definition nslookup (s : dnsc) (name : list Z) (cb rnd : Z) (e : denv) : dnsc * Z * list dev_out :=
  if negb (q_id s =? 0) then (s, -16, []) else
  dns_send_query {| q_id := q_id s; q_type := 1; q_buf := q_buf s; q_retry := q_retry s; q_timer := q_timer s; cb_a := Some cb; cb_ptr := None |} name 1 rnd e.
(** wolfip.c:11140-11157 wolfIP_dns_ptr_lookup *)
Definition ptr_lookup (s : dnsc) (ip cb rnd : Z) (e : denv) : dnsc * Z * list dev_out :=
  match dns_format_ptr_name ip with
  | None => (s, -22, [])
  | Some name =>
      if negb (q_id s =? 0) then (s, -16, []) else
      dns_send_query {| q_id := q_id s; q_type := 2; q_buf := q_buf s; q_retry := q_retry s; q_timer := q_timer s; cb_a := None; cb_ptr := Some cb |} name 12 rnd e
  end.
(** wolfip.c:10901-10920 dns_timeout_cb; fires only while armed.  [sent] is the result of
    the resend. *)
Definition dns_timeout (s : dnsc) (sent tmr : bool) : dnsc * list dev_out :=
  if negb (q_timer s) then (s, []) else
  let s := {| q_id := q_id s; q_type := q_type s; q_buf := q_buf s; q_retry := q_retry s; q_timer := false; cb_a := cb_a s; cb_ptr := cb_ptr s |} in
  if q_id s =? 0 then (s, []) else
  if q_retry s <? 3 then
    if negb sent || (zlen (q_buf s) =? 0) then (dns_abort s, []) else
    ({| q_id := q_id s; q_type := q_type s; q_buf := q_buf s; q_retry := q_retry s + 1; q_timer := tmr; cb_a := cb_a s; cb_ptr := cb_ptr s |}, [Sent (q_buf s)])
  else (dns_abort s, []).

(** wolfip.c:10976-11016: the answer loop over [fuel] = ancount records *)
Fixpoint dns_answers (fuel : nat) (s : dnsc) (p : list Z) (pos : Z) : option (dnsc * list dev_out) :=
  match fuel with
  | O => Some (s, [])
  | S fuel =>
      do r <- dns_skip_name p pos;
      match r with
      | None => Some (dns_abort s, [])
      | Some pos =>
          if zlen p <? pos + 10 then Some (dns_abort s, []) else
          do rr <- mread p pos 10;
          let pos := pos + 10 in
          let rdlen := rd16 rr 8 in
          if zlen p <? pos + rdlen then Some (dns_abort s, []) else
          if (q_type s =? 1) && (rd16 rr 0 =? 1) && (rd16 rr 2 =? 1) && (rdlen =? 4) then
            do ip <- mread p pos 4;
            Some (dns_abort s, match cb_a s with Some cb => [CallA cb (rd32 ip 0)] | None => [] end)
          else if (q_type s =? 2) && (rd16 rr 0 =? 12) && (rd16 rr 2 =? 1) then
            do n <- dns_copy_name p pos (repeat 0 256);
            match n with
            | Some out => Some (dns_abort s, match cb_ptr s with Some cb => [CallPtr cb out] | None => [] end)
            | None => dns_answers fuel s p (pos + rdlen)
            end
          else dns_answers fuel s p (pos + rdlen)
      end
  end.
(** wolfip.c:10922-11018 dns_callback on a received datagram ([None] inside: recvfrom failed) *)
Definition dns_rx (s : dnsc) (p : list Z) : option (dnsc * list dev_out) :=
  if zlen p <? 12 then Some (s, []) else
  do hdr <- mread p 0 12;
  if negb (rd16 hdr 0 =? q_id s) then Some (s, []) else
  let flags := rd16 hdr 2 in
  if negb (Z.land flags 33024 =? 33024) then Some (s, []) else (* DNS_RD | DNS_RESPONSE << 8 *)
  if negb (Z.land flags 512 =? 0) then Some (dns_abort s, []) else
  if negb (Z.land flags 15 =? 0) then Some (dns_abort s, []) else
  let qcount := rd16 hdr 4 in
  let ancount := rd16 hdr 6 in
  if negb (qcount =? 1) then Some (s, []) else
  do r <- dns_skip_name p 12;
  match r with
  | None => Some (dns_abort s, [])
  | Some pos =>
      if zlen p <? pos + 4 then Some (dns_abort s, []) else
      do m <- dns_question_matches (q_buf s) p 12;
      if negb m then Some (s, []) else
      dns_answers (Z.to_nat ancount) s p (pos + 4)
  end.

(** Histories *)
Inductive dop :=
| DLookup (name : list Z) (cb rnd : Z) (e : denv)
| DPtr (ip cb rnd : Z) (e : denv)
| DRx (p : list Z)
| DRxFail
| DTimeout (sent tmr : bool).
Inductive dres := RRet (code : Z) | RNone.
Definition dstep (s : dnsc) (o : dop) : option (dnsc * (dres * list dev_out)) :=
  match o with
  | DLookup n cb rnd e => let '(s, c, out) := nslookup s n cb rnd e in Some (s, (RRet c, out))
  | DPtr ip cb rnd e => let '(s, c, out) := ptr_lookup s ip cb rnd e in Some (s, (RRet c, out))
  | DRx p => do (s, out) <- dns_rx s p; Some (s, (RNone, out))
  | DRxFail => Some (dns_abort s, (RNone, []))
  | DTimeout b t => let (s, out) := dns_timeout s b t in Some (s, (RNone, out))
  end.
Fixpoint drun (s : dnsc) (os : list dop) : option (dnsc * list (dres * list dev_out)) :=
  match os with
  | [] => Some (s, [])
  | o :: os => do (s, r) <- dstep s o; do (s, rs) <- drun s os; Some (s, r :: rs)
  end.
