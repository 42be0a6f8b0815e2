(** The HTTP server's request parser, page table and argument lookup.
    Source: /repo/src/http/httpd.c:73-108 (page table), 302-317
    (http_header_value), 319-491 (parse_http_request), 493-533 (http_recv_cb),
    572-607 (httpd_get_request_arg); sizes in /repo/src/http/httpd.h:16-43.
    Every [char] array is a list of bytes and every access is checked: [None] is an
    access outside the array (or a loop that does not stop), i.e. undefined behaviour.
    Simplifications: what is written to the socket is represented by the status
    code, the static page or the handler call ([outcome]); TLS is not modelled. *)
From Verif Require Import Base HttpUrl.

(** httpd.h:16-20, 24, 27 *)
Definition METHOD_LEN : Z := 8.
Definition PATH_LEN : Z := 128.
Definition QUERY_LEN : Z := 256.
Definition HEADERS_LEN : Z := 1024.
Definition BODY_LEN : Z := 1024.
Definition RECV_BUF_LEN : Z := 1460.
Definition MAX_URLS : nat := 16.

(** httpd.h:41-48 struct http_request *)
Record request := Req { r_method : list Z; r_path : list Z; r_query : list Z;
  r_headers : list Z; r_body : list Z; r_body_len : Z }.
Definition zeros (n : Z) : list Z := repeat 0 (Z.to_nat n).

(** ISO C strchr(m + i, c), [l] being the memory from index [i] on; [c] is not NUL. *)
Fixpoint scan_chr (l : list Z) (c i : Z) : option (option Z) :=
  match l with
  | [] => None
  | b :: l' => if b =? c then Some (Some i) else if b =? 0 then Some None else scan_chr l' c (i + 1)
  end.
Definition strchr (m : list Z) (p c : Z) : option (option Z) :=
  if (0 <=? p) && (p <=? zlen m) then scan_chr (skipn (Z.to_nat p) m) c p else None.
(** ISO C strstr(m + i, CRLF) *)
Fixpoint scan_crlf (l : list Z) (i : Z) : option (option Z) :=
  match l with
  | [] => None
  | b :: l' =>
      if b =? 0 then Some None
      else if b =? 13 then
        match l' with
        | [] => None
        | b2 :: _ => if b2 =? 10 then Some (Some i) else scan_crlf l' (i + 1)
        end
      else scan_crlf l' (i + 1)
  end.
Definition strstr_crlf (m : list Z) (p : Z) : option (option Z) :=
  if (0 <=? p) && (p <=? zlen m) then scan_crlf (skipn (Z.to_nat p) m) p else None.
(** ISO C strcmp(a, b) == 0 *)
Fixpoint strcmp_eq (a b : list Z) : option bool :=
  match a, b with
  | x :: a', y :: b' => if x =? y then if x =? 0 then Some true else strcmp_eq a' b' else Some false
  | _, _ => None
  end.

(** httpd.c:302-316 http_header_value: position of the value, if the line
    [p, p+len) is the header [name] (given in lower case, as both callers do). *)
Fixpoint name_eq (m : list Z) (s : Z) (name : list Z) : option bool :=
  match name with
  | [] => Some true
  | c :: name' => do x <- rd1 m s; if tolower x =? tolower c then name_eq m (s + 1) name' else Some false
  end.
Fixpoint skip_ws (fuel : nat) (m : list Z) (s i len : Z) : option Z :=
  match fuel with
  | O => None
  | S fuel =>
      if i <? len then
        do x <- rd1 m (s + i);
        if (x =? 32) || (x =? 9) then skip_ws fuel m s (i + 1) len else Some i
      else Some i
  end.
Definition http_header_value (m : list Z) (s len : Z) (name : list Z) : option (option Z) :=
  let nl := zlen name in
  if len <? nl + 1 then Some None else
  do eq <- name_eq m s name;
  if negb eq then Some None else
  do x <- rd1 m (s + nl);
  if negb (x =? 58) then Some None else
  do i <- skip_ws (S (Z.to_nat len)) m s (nl + 1) len;
  Some (Some (s + i)).

(** "content-length" and "transfer-encoding" *)
Definition CONTENT_LENGTH : list Z := [99;111;110;116;101;110;116;45;108;101;110;103;116;104].
Definition TRANSFER_ENCODING : list Z := [116;114;97;110;115;102;101;114;45;101;110;99;111;100;105;110;103].

(** httpd.c:412-418 the digits of Content-Length: [Some None] is "goto
    bad_request", otherwise where the digits stop and the number. *)
Fixpoint digits (fuel : nat) (m : list Z) (d q cl : Z) : option (option (Z * Z)) :=
  match fuel with
  | O => None
  | S fuel =>
      if d <? q then
        do x <- rd1 m d;
        if (48 <=? x) && (x <=? 57) then
          let cl := cl * 10 + (x - 48) in
          if BODY_LEN <? cl then Some None else digits fuel m (d + 1) q cl
        else Some (Some (d, cl))
      else Some (Some (d, cl))
  end.

(** httpd.c:404-425 the framing headers: new (content_length, has_te), or [Some None]
    for "goto bad_request". *)
Definition framing (m : list Z) (p n q : Z) (cl : Z) (te : bool) : option (option (Z * bool)) :=
  do v <- http_header_value m p n CONTENT_LENGTH;
  match v with
  | Some v =>
      if 0 <=? cl then Some None else
      if q <=? v then Some None else
      do x <- rd1 m v;
      if (x <? 48) || (57 <? x) then Some None else
      do r <- digits (S (Z.to_nat (q - v))) m v q 0;
      match r with
      | None => Some None
      | Some (d, k) => if negb (d =? q) then Some None else Some (Some (k, te))
      end
  | None =>
      do t <- http_header_value m p n TRANSFER_ENCODING;
      match t with Some _ => Some (Some (cl, true)) | None => Some (Some (cl, te)) end
  end.

(** httpd.c:426-440 append the header line to req.headers *)
Definition add_header (m hdr : list Z) (hdr_len p n : Z) : option (option (list Z * Z)) :=
  let sep := if 0 <? hdr_len then 2 else 0 in
  if HEADERS_LEN <=? hdr_len + sep + n then Some None else
  do hdr <- (if 0 <? sep then do h1 <- mwrite hdr hdr_len [13]; mwrite h1 (hdr_len + 1) [10] else Some hdr);
  do line <- mread m p n;
  do hdr <- mwrite hdr (hdr_len + sep) line;
  let hdr_len := hdr_len + (sep + n) in
  do hdr <- mwrite hdr hdr_len [0];
  Some (Some (hdr, hdr_len)).

(** httpd.c:390-442 the header loop; [Some None] is "goto bad_request", otherwise
    the final p, req.headers, content_length and has_te. *)
Fixpoint header_loop (fuel : nat) (m : list Z) (e p : Z) (hdr : list Z) (hdr_len cl : Z) (te : bool)
  : option (option (Z * list Z * Z * bool)) :=
  match fuel with
  | O => None
  | S fuel =>
      if negb (p <? e) then Some (Some (p, hdr, cl, te)) else
      do r <- strstr_crlf m p;
      match r with
      | None => Some None
      | Some q =>
          let n := q - p in
          if n =? 0 then Some (Some (q + 2, hdr, cl, te)) else
          if HEADERS_LEN <=? n then Some None else
          do f <- framing m p n q cl te;
          match f with
          | None => Some None
          | Some (cl, te) =>
              do a <- add_header m hdr hdr_len p n;
              match a with
              | None => Some None
              | Some (hdr, hdr_len) => header_loop fuel m e (q + 2) hdr hdr_len cl te
              end
          end
      end
  end.

(** httpd.c:319-465 parse_http_request up to the method check: a bad request
    (400), the silent failure of line 459, or a request. *)
Inductive parsed := PBad | PSilent | PReq (r : request).
Definition memchr_any (m : list Z) (pos n c1 c2 : Z) : option bool :=
  do a <- memchr m pos n c1;
  match a with
  | Some _ => Some true
  | None => do b <- memchr m pos n c2; Some (match b with Some _ => true | None => false end)
  end.
Definition parse_target (m : list Z) (p n : Z) : option (option (list Z * list Z)) :=
  do qs <- memchr m p n 63;
  let path_len := match qs with Some q => q - p | None => n end in
  let query_len := match qs with Some _ => n - path_len - 1 | None => 0 end in
  if PATH_LEN <=? path_len then Some None else
  do bs <- mread m p path_len;
  do path <- mwrite (zeros PATH_LEN) 0 bs;
  do path <- mwrite path path_len [0];
  do dec <- http_url_decode path path_len;
  let '(path, dl) := dec in
  if dl <? 0 then Some None else
  do path <- mwrite path dl [0];
  do bad <- memchr_any path 0 dl 13 10;
  if (bad : bool) then Some None else
  match qs with
  | None => Some (Some (path, zeros QUERY_LEN))
  | Some q =>
      if QUERY_LEN <=? query_len then Some None else
      do bad <- memchr_any m (q + 1) query_len 13 10;
      if (bad : bool) then Some None else
      do bs <- mread m (q + 1) query_len;
      do query <- mwrite (zeros QUERY_LEN) 0 bs;
      do query <- mwrite query query_len [0];
      Some (Some (path, query))
  end.
Definition parse_body (m : list Z) (e p cl : Z) (te : bool) (method path query hdr : list Z) : option parsed :=
  let n := u64 (e - p) in
  if te then Some PBad else
  if (if 0 <=? cl then negb (cl =? n) else 0 <? n) then Some PBad else
  if 0 <? n then
    if BODY_LEN <=? n then Some PSilent else
    do bs <- mread m p n;
    do body <- mwrite (zeros BODY_LEN) 0 bs;
    do body <- mwrite body n [0];
    Some (PReq (Req method path query hdr body n))
  else Some (PReq (Req method path query hdr (zeros BODY_LEN) 0)).
Definition parse_request (m : list Z) (len : Z) : option parsed :=
  if len <? 4 then Some PBad else
  do q <- strchr m 0 32;
  match q with
  | None => Some PBad
  | Some q =>
    let n := q in
    if METHOD_LEN <=? n then Some PBad else
    do bs <- mread m 0 n;
    do method <- mwrite (zeros METHOD_LEN) 0 bs;
    do method <- mwrite method n [0];
    let p := q + 1 in
    do q <- strchr m p 32;
    match q with
    | None => Some PBad
    | Some q =>
      do t <- parse_target m p (q - p);
      match t with
      | None => Some PBad
      | Some (path, query) =>
        let p := q + 1 in
        do q <- strchr m p 13;
        match q with
        | None => Some PBad
        | Some q =>
          let p := q + 2 in
          do h <- header_loop (S (Z.to_nat len)) m len p (zeros HEADERS_LEN) 0 (-1) false;
          match h with
          | None => Some PBad
          | Some (p, hdr, cl, te) => parse_body m len p cl te method path query hdr
          end
        end
      end
    end
  end.

(** httpd.h:57-61 struct http_url; a handler is represented by a number *)
Record url := Url { u_path : list Z; u_handler : option Z; u_static : option (list Z) }.
Definition no_url : url := Url (zeros PATH_LEN) None None.
(** httpd.c:617 httpd_init clears the table *)
Definition urls0 : list url := repeat no_url MAX_URLS.

(** ISO C strncpy(d, path, PATH_LEN); d[PATH_LEN-1] = 0 (httpd.c:78-79): [path] is the
    string without its NUL. *)
Definition copy_path (path : list Z) : list Z :=
  firstn (Z.to_nat (PATH_LEN - 1)) (path ++ zeros PATH_LEN) ++ [0].
(** httpd.c:73-85, 87-100: the first free slot, or -1 *)
Fixpoint register (us : list url) (f : url -> url) : option (list url) :=
  match us with
  | [] => None
  | u :: us' => if nth 0 (u_path u) 0 =? 0 then Some (f u :: us')
                else match register us' f with Some r => Some (u :: r) | None => None end
  end.
Definition httpd_register_handler (us : list url) (path : list Z) (h : Z) : list url * Z :=
  match register us (fun u => Url (copy_path path) (Some h) (u_static u)) with
  | Some r => (r, 0) | None => (us, -1) end.
Definition httpd_register_static_page (us : list url) (path content : list Z) : list url * Z :=
  match register us (fun u => Url (copy_path path) None (Some content)) with
  | Some r => (r, 0) | None => (us, -1) end.
(** httpd.c:102-108 *)
Fixpoint http_find_url (us : list url) (path : list Z) : option (option url) :=
  match us with
  | [] => Some None
  | u :: us' => do eq <- strcmp_eq (u_path u) path; if (eq : bool) then Some (Some u) else http_find_url us' path
  end.

(** httpd.c:466-491: what the client gets *)
Inductive outcome :=
| OStatus (code : Z)                 (* http_send_response_headers(code), return -1 *)
| OStatic (content : list Z)         (* 200 and the page, return 0 *)
| OCall (h : Z) (r : request)        (* the handler runs *)
| OSilent.                           (* return -1, nothing sent *)
(** "GET" and "POST" with their NUL *)
Definition s_GET : list Z := [71;69;84;0].
Definition s_POST : list Z := [80;79;83;84;0].
Definition dispatch (us : list url) (r : request) : option outcome :=
  do g <- strcmp_eq (r_method r) s_GET; do po <- strcmp_eq (r_method r) s_POST;
  if negb g && negb po then Some (OStatus 400) else
  do u <- http_find_url us (r_path r);
  match u with
  | None => Some (OStatus 404)
  | Some u =>
      match u_handler u, u_static u with
      | None, None => Some (OStatus 503)
      | None, Some c => Some (OStatic c)
      | Some h, _ => Some (OCall h r)
      end
  end.
Definition parse_http_request (us : list url) (m : list Z) (len : Z) : option outcome :=
  do r <- parse_request m len;
  match r with
  | PBad => Some (OStatus 400)
  | PSilent => Some OSilent
  | PReq r => dispatch us r
  end.

(** httpd.c:493-520 http_recv_cb once data has been received: at most
    sizeof(buf)-1 bytes, stored at the start of a buffer of uninitialised bytes
    [buf], terminated, then parsed. *)
Definition http_recv (us : list url) (buf data : list Z) : option outcome :=
  do m <- mwrite buf 0 data;
  do m <- mwrite m (zlen data) [0];
  parse_http_request us m (zlen data).

(** httpd.c:572-607 httpd_get_request_arg.  [name] is the string without its NUL and
    [value] the caller's buffer of value_len bytes; result: buffer and return value.
    The test of line 592 compares key_len with strlen(name) before strncmp. *)
Fixpoint bytes_eq (a b : list Z) : bool :=
  match a, b with [], [] => true | x :: a, y :: b => (x =? y) && bytes_eq a b | _, _ => false end.
Fixpoint strlen_at (l : list Z) : option Z :=
  match l with [] => None | b :: l' => if b =? 0 then Some 0 else do n <- strlen_at l'; Some (n + 1) end.
Fixpoint arg_loop (fuel : nat) (m : list Z) (p : Z) (name value : list Z) : option (list Z * Z) :=
  match fuel with
  | O => None
  | S fuel =>
      do c <- rd1 m p;
      if c =? 0 then Some (value, -1) else
      do q0 <- strchr m p 38;
      do q <- (match q0 with Some q => Some q
               | None => do n <- strlen_at (skipn (Z.to_nat p) m); Some (p + n) end);
      do sep <- strchr m p 61;
      do hit <- (match sep with
                 | Some s => if s <? q then do key <- mread m p (s - p);
                               Some (if (s - p =? zlen name) && bytes_eq key name then Some s else None)
                             else Some None
                 | None => Some None end);
      match hit with
      | Some s =>
          let n := q - (s + 1) in
          if zlen value <=? n then Some (value, -1) else
          do bs <- mread m (s + 1) n;
          do v <- mwrite value 0 bs;
          do v <- mwrite v n [0];
          Some (v, 0)
      | None =>
          do c <- rd1 m q;
          if c =? 0 then Some (value, -1) else arg_loop fuel m (q + 1) name value
      end
  end.
Definition httpd_get_request_arg (r : request) (name value : list Z) : option (list Z * Z) :=
  do g <- strcmp_eq (r_method r) s_GET;
  if (g : bool) then arg_loop (length (r_query r)) (r_query r) 0 name value else
  do po <- strcmp_eq (r_method r) s_POST;
  if (po : bool) then arg_loop (length (r_body r)) (r_body r) 0 name value else
  Some (value, -1).
