(** TFTP packets: requests, option negotiation, DATA, ACK, ERROR and OACK.
    Source: /repo/src/tftp/wolftftp.c:30-593. Strings are NUL-terminated byte arrays
    read and written with bounds checks: [None] is an access outside the packet or
    the destination buffer. C strings given by the application (file names) are
    arrays that contain the terminating 0. Pointers inside a packet are offsets.
    NULL-argument checks are left out (the callers pass addresses of objects). *)
From Verif Require Import Base HttpUrl.

(** wolftftp.h:39-62, 71 *)
Definition MAX_FILENAME : Z := 128.
Definition MAX_BLKSIZE : Z := 1428.
Definition DEFAULT_BLKSIZE : Z := 512.
Definition MAX_WINDOWSIZE : Z := 8.
Definition DEFAULT_TIMEOUT_S : Z := 1.
Definition DEFAULT_RETRIES : Z := 5.
Definition REQ_BUF_MAX : Z := 256.
(** wolftftp.c:30 *)
Definition PKT_MAX : Z := 1432.
(** wolftftp.h:73-81, wolfip.h EINVAL *)
Definition ERR_IO : Z := -1000.
Definition ERR_STATE : Z := -1001.
Definition ERR_PACKET : Z := -1002.
Definition ERR_TIMEOUT : Z := -1003.
Definition ERR_SIZE : Z := -1004.
Definition ERR_VERIFY : Z := -1005.
Definition ERR_UNSUPPORTED : Z := -1006.
Definition ERR_TID : Z := -1007.
Definition EINVAL : Z := 22.
(** wolftftp.c:31-34 *)
Definition OPT_BLKSIZE : Z := 1.
Definition OPT_TIMEOUT : Z := 2.
Definition OPT_TSIZE : Z := 4.
Definition OPT_WINDOWSIZE : Z := 8.
(** wolftftp.h:83-90 *)
Definition OP_RRQ : Z := 1.
Definition OP_WRQ : Z := 2.
Definition OP_DATA : Z := 3.
Definition OP_ACK : Z := 4.
Definition OP_ERROR : Z := 5.
Definition OP_OACK : Z := 6.

(** String literals of the code. *)
Definition s_octet : list Z := [111; 99; 116; 101; 116].
Definition s_blksize : list Z := [98; 108; 107; 115; 105; 122; 101].
Definition s_timeout : list Z := [116; 105; 109; 101; 111; 117; 116].
Definition s_tsize : list Z := [116; 115; 105; 122; 101].
Definition s_windowsize : list Z := [119; 105; 110; 100; 111; 119; 115; 105; 122; 101].

(** wolftftp.h:130-137 struct wolftftp_transfer_cfg, 139-145 struct wolftftp_negotiated,
    wolftftp.c:36-44 struct wolftftp_parsed_req (the file name without its 0) *)
Record cfg := mkCfg { c_port : Z; c_blksize : Z; c_timeout : Z; c_window : Z; c_retries : Z; c_maximg : Z }.
Record neg := mkNeg { n_blksize : Z; n_timeout : Z; n_window : Z; n_tsize : Z; n_have : bool }.
Record preq := mkReq { q_op : Z; q_name : list Z; q_blksize : Z; q_timeout : Z; q_window : Z; q_tsize : Z; q_opts : Z }.

(** wolftftp.c:52-63 wolftftp_strnlen_local(s + p, max) *)
Fixpoint strnlen (max : nat) (s : list Z) (p : Z) : option Z :=
  match max with
  | O => Some 0
  | S n => do c <- rd1 s p; if c =? 0 then Some 0 else do k <- strnlen n s (p + 1); Some (1 + k)
  end.

(** wolftftp.c:66-71 wolftftp_tolower_local is HttpUrl.tolower.
    wolftftp.c:94-111 wolftftp_stricmp_local(s + p, lit) == 0. The loop runs at most one
    round past the literal: there *b is 0 and any other byte of [s] differs. *)
Fixpoint striceq (s : list Z) (p : Z) (lit : list Z) : option bool :=
  match lit with
  | [] => do a <- rd1 s p; Some (tolower a =? 0)
  | b :: l => do a <- rd1 s p; if tolower a =? tolower b then striceq s (p + 1) l else Some false
  end.

(** wolftftp.c:114-123 *)
Definition read_u16 (s : list Z) (p : Z) : option Z := do a <- rd1 s p; do b <- rd1 s (p + 1); Some (256 * a + b).
Definition enc16 (v : Z) : list Z := [u8 (v / 256); u8 v].

(** wolftftp.c:125-146 wolftftp_parse_u32: inner [None] is -1. [fuel]: bytes of the packet. *)
Fixpoint parse_digits (fuel : nat) (s : list Z) (p v max : Z) : option (option Z) :=
  match fuel with
  | O => None
  | S n =>
    do c <- rd1 s p;
    if c =? 0 then Some (Some v) else
    if (c <? 48) || (57 <? c) then Some None else
    let digit := c - 48 in
    if (4294967295 - digit) / 10 <? v then Some None else
    let v := u32 (v * 10 + digit) in
    if max <? v then Some None else parse_digits n s (p + 1) v max
  end.
Definition parse_u32 (s : list Z) (p max : Z) : option (option Z) :=
  do c <- rd1 s p; if c =? 0 then Some None else parse_digits (S (length s)) s p 0 max.

(** wolftftp.c:75-91 wolftftp_utoa_local: the digits written before the 0, for a
    destination of [cap] bytes. [rev_digits] is tmp[], least significant first (24 bytes;
    an unsigned long has at most 20 digits, so [fuel] 20 always suffices). *)
Fixpoint rev_digits (fuel : nat) (v : Z) : list Z :=
  match fuel with
  | O => []
  | S n => if v =? 0 then [] else (48 + v mod 10) :: rev_digits n (v / 10)
  end.
Definition utoa (cap v : Z) : list Z :=
  let tmp := if v =? 0 then [48] else rev_digits 20 v in
  firstn (Z.to_nat (cap - 1)) (rev tmp).

(** wolftftp.c:148-160 wolftftp_copy_string(dst[MAX_FILENAME], src): the string stored *)
Definition copy_string (src : list Z) : option (Z * list Z) :=
  do len <- strnlen (Z.to_nat MAX_FILENAME) src 0;
  if (len =? 0) || (MAX_FILENAME <=? len) then Some (- EINVAL, [])
  else do s <- mread src 0 len; Some (0, s).

(** wolftftp.c:162-176 *)
Definition cfg_defaults (c : cfg) : cfg :=
  let b := if c_blksize c =? 0 then DEFAULT_BLKSIZE else c_blksize c in
  let t := if c_timeout c =? 0 then DEFAULT_TIMEOUT_S else c_timeout c in
  let w := if c_window c =? 0 then 1 else c_window c in
  let r := if c_retries c =? 0 then DEFAULT_RETRIES else c_retries c in
  mkCfg (c_port c) (if MAX_BLKSIZE <? b then MAX_BLKSIZE else b) t (if MAX_WINDOWSIZE <? w then MAX_WINDOWSIZE else w) r (c_maximg c).
(** wolftftp.c:178-185 *)
Definition neg_defaults (c : cfg) : neg := mkNeg (c_blksize c) (c_timeout c) (c_window c) 0 false.

(** wolftftp.c:234-249 wolftftp_append_opt: buffer, offset and 0 or ERR_PACKET *)
Definition append_opt (buf : list Z) (off max : Z) (key value : list Z) : option (list Z * Z * Z) :=
  let klen := zlen key + 1 in let vlen := zlen value + 1 in
  if max <? off + klen + vlen then Some (buf, off, ERR_PACKET) else
  do buf <- mwrite buf off (key ++ [0]);
  let off := u16 (off + klen) in
  do buf <- mwrite buf off (value ++ [0]);
  Some (buf, u16 (off + vlen), 0).

(** One "if (cond) { utoa; append_opt; opts |= bit }" of wolftftp_build_request /
    wolftftp_build_oack; [err] is the pending return value. *)
Definition maybe_opt (cond : bool) (key : list Z) (v bit : Z) (max : Z) (st : list Z * Z * Z * Z) : option (list Z * Z * Z * Z) :=
  let '(buf, off, opts, err) := st in
  if negb (err =? 0) then Some st else
  if cond then
    do (buf, off, err) <- append_opt buf off max key (utoa 16 v);
    Some (buf, off, (if err =? 0 then Z.lor opts bit else opts), err)
  else Some st.

(** wolftftp.c:251-307 wolftftp_build_request: return value, buffer, requested_opts
    and length. [name] contains its terminating 0. *)
Definition build_request (buf : list Z) (max op : Z) (name : list Z) (c : cfg) (tsize : Z) : option (Z * (list Z * Z * Z)) :=
  do nl <- strnlen (Z.to_nat MAX_FILENAME) name 0;
  if (nl =? 0) || (MAX_FILENAME <=? nl) then Some (- EINVAL, (buf, 0, 0)) else
  if max <? u16 (4 + nl + 6) then Some (ERR_PACKET, (buf, 0, 0)) else
  do buf <- mwrite buf 0 (enc16 op);
  do nm <- mread name 0 (nl + 1);
  do buf <- mwrite buf 2 nm;
  let off := u16 (2 + nl + 1) in
  do buf <- mwrite buf off (s_octet ++ [0]);
  let off := u16 (off + 6) in
  do st <- maybe_opt (negb (c_blksize c =? DEFAULT_BLKSIZE)) s_blksize (c_blksize c) OPT_BLKSIZE max (buf, off, 0, 0);
  do st <- maybe_opt (negb (c_timeout c =? DEFAULT_TIMEOUT_S)) s_timeout (c_timeout c) OPT_TIMEOUT max st;
  do st <- maybe_opt (1 <? c_window c) s_windowsize (c_window c) OPT_WINDOWSIZE max st;
  do st <- maybe_opt (negb (tsize =? 0) || negb (c_maximg c =? 0)) s_tsize tsize OPT_TSIZE max st;
  let '(buf, off, opts, err) := st in
  Some (err, (buf, opts, if err =? 0 then off else 0)).

(** wolftftp.c:318-346 wolftftp_filename_is_safe. First loop (331-334): *)
Fixpoint has_colon (fuel : nat) (s : list Z) (p : Z) : option bool :=
  match fuel with
  | O => None
  | S n => do c <- rd1 s p; if c =? 0 then Some false else if c =? 58 then Some true else has_colon n s (p + 1)
  end.
(** Second loop (335-344): [c] and [seg] are offsets; true when no ".." component is met. *)
Fixpoint seg_scan (fuel : nat) (s : list Z) (c seg : Z) : option bool :=
  match fuel with
  | O => None
  | S n =>
    do x <- rd1 s c;
    if (x =? 47) || (x =? 92) || (x =? 0) then
      do dd <- (if c - seg =? 2 then do a <- rd1 s seg; do b <- rd1 s (seg + 1); Some ((a =? 46) && (b =? 46)) else Some false);
      if dd : bool then Some false else if x =? 0 then Some true else seg_scan n s (c + 1) (c + 1)
    else seg_scan n s (c + 1) seg
  end.
Definition filename_is_safe (s : list Z) : option bool :=
  do c0 <- rd1 s 0;
  if c0 =? 0 then Some false else
  if (c0 =? 47) || (c0 =? 92) then Some false else
  do col <- has_colon (S (length s)) s 0;
  if col : bool then Some false else seg_scan (S (length s)) s 0 0.

(** wolftftp.c:380-393 and 512-525: the next key and value of the option list that
    starts at [p] (offsets of key and value, and of the option after them). The
    inner [None] is "return WOLFTFTP_ERR_PACKET". *)
Definition next_kv (buf : list Z) (p : Z) : option (option (Z * Z * Z)) :=
  let len := zlen buf in
  do kl <- strnlen (Z.to_nat (len - p)) buf p;
  if (kl =? 0) || (len <=? p + kl) then Some None else
  let value := p + kl + 1 in
  do vl <- strnlen (Z.to_nat (len - value)) buf value;
  if (vl =? 0) || (len <=? value + vl) then Some None else
  Some (Some (p, value, value + vl + 1)).

(** wolftftp.c:394-418: one recognised option; [inr] is the error returned *)
Definition req_option (buf : list Z) (key value : Z) (q : preq) : option (preq + Z) :=
  let bad := inr ERR_UNSUPPORTED in
  do k1 <- striceq buf key s_blksize;
  if k1 : bool then
    do n <- parse_u32 buf value MAX_BLKSIZE;
    match n with
    | None => Some bad
    | Some v => if v <? 8 then Some bad else
      Some (inl (mkReq (q_op q) (q_name q) (u16 v) (q_timeout q) (q_window q) (q_tsize q) (Z.lor (q_opts q) OPT_BLKSIZE)))
    end
  else do k2 <- striceq buf key s_timeout;
  if k2 : bool then
    do n <- parse_u32 buf value 255;
    match n with
    | None => Some bad
    | Some v => if v =? 0 then Some bad else
      Some (inl (mkReq (q_op q) (q_name q) (q_blksize q) (u16 v) (q_window q) (q_tsize q) (Z.lor (q_opts q) OPT_TIMEOUT)))
    end
  else do k3 <- striceq buf key s_tsize;
  if k3 : bool then
    do n <- parse_u32 buf value 4294967295;
    match n with
    | None => Some bad
    | Some v => Some (inl (mkReq (q_op q) (q_name q) (q_blksize q) (q_timeout q) (q_window q) v (Z.lor (q_opts q) OPT_TSIZE)))
    end
  else do k4 <- striceq buf key s_windowsize;
  if k4 : bool then
    do n <- parse_u32 buf value MAX_WINDOWSIZE;
    match n with
    | None => Some bad
    | Some v => if v =? 0 then Some bad else
      Some (inl (mkReq (q_op q) (q_name q) (q_blksize q) (q_timeout q) (u16 v) (q_tsize q) (Z.lor (q_opts q) OPT_WINDOWSIZE)))
    end
  else Some bad.

(** wolftftp.c:379-420: the option loop. *)
Fixpoint req_options (fuel : nat) (buf : list Z) (p : Z) (q : preq) : option (preq + Z) :=
  if zlen buf <=? p then Some (inl q) else
  match fuel with
  | O => None
  | S n =>
    do kv <- next_kv buf p;
    match kv with
    | None => Some (inr ERR_PACKET)
    | Some (key, value, p') =>
      do r <- req_option buf key value q;
      match r with inr e => Some (inr e) | inl q => req_options n buf p' q end
    end
  end.

(** wolftftp.c:348-423 wolftftp_parse_request *)
Definition parse_request (buf : list Z) : option (preq + Z) :=
  let len := zlen buf in
  if len <? 4 then Some (inr ERR_PACKET) else
  do op <- read_u16 buf 0;
  if negb (op =? OP_RRQ) && negb (op =? OP_WRQ) then Some (inr ERR_PACKET) else
  do slen <- strnlen (Z.to_nat (len - 2)) buf 2;
  if (slen =? 0) || (MAX_FILENAME <=? slen) || (len <=? u16 (2 + slen)) then Some (inr ERR_PACKET) else
  do name <- mread buf 2 slen;
  do ok <- filename_is_safe (name ++ [0]);
  if negb ok then Some (inr ERR_PACKET) else
  let p := 2 + slen + 1 in
  do mlen <- strnlen (Z.to_nat (len - p)) buf p;
  (* :374-376, short-circuit: the mode is compared only if it is terminated *)
  do octet <- (if (mlen =? 0) || (len <=? p + mlen) then Some false else striceq buf p s_octet);
  if negb octet then Some (inr ERR_UNSUPPORTED) else
  req_options (length buf) buf (p + mlen + 1) (mkReq op name 0 0 0 0 0).

(** wolftftp.c:425-430 *)
Definition build_ack (block : Z) : list Z := enc16 OP_ACK ++ enc16 block.
(** wolftftp.c:432-446; [None]: the message does not fit and an error is returned *)
Definition build_error (max code : Z) (msg : list Z) : option (list Z) :=
  if (max <? 5) || (max <? zlen msg + 1 + 4) then None else Some (enc16 OP_ERROR ++ enc16 code ++ msg ++ [0]).
(** wolftftp.c:448-458; [None]: ERR_PACKET *)
Definition build_data (block : Z) (data : list Z) : option (list Z) :=
  if PKT_MAX <? u16 (4 + zlen data) then None else Some (enc16 OP_DATA ++ enc16 block ++ data).

(** wolftftp.c:460-495 wolftftp_build_oack into [buf] of [max] bytes: the packet or an error *)
Definition build_oack (buf : list Z) (max : Z) (n : neg) (opts : Z) : option (list Z + Z) :=
  do buf <- mwrite buf 0 (enc16 OP_OACK);
  let want bit := negb (Z.land opts bit =? 0) in
  do st <- maybe_opt (want OPT_BLKSIZE) s_blksize (n_blksize n) OPT_BLKSIZE max (buf, 2, 0, 0);
  do st <- maybe_opt (want OPT_TIMEOUT) s_timeout (n_timeout n) OPT_TIMEOUT max st;
  do st <- maybe_opt (want OPT_TSIZE) s_tsize (n_tsize n) OPT_TSIZE max st;
  do st <- maybe_opt (want OPT_WINDOWSIZE) s_windowsize (n_window n) OPT_WINDOWSIZE max st;
  let '(buf, off, _, err) := st in
  if negb (err =? 0) then Some (inr err) else do pkt <- mread buf 0 off; Some (inl pkt).

(** wolftftp.c:530-559: one option of an OACK *)
Definition oack_option (buf : list Z) (key value : Z) (req : Z) (g : neg) : option (neg + Z) :=
  let bad := inr ERR_UNSUPPORTED in
  let asked bit := negb (Z.land req bit =? 0) in
  do k1 <- striceq buf key s_blksize;
  if k1 : bool then
    if negb (asked OPT_BLKSIZE) then Some bad else
    do n <- parse_u32 buf value MAX_BLKSIZE;
    match n with
    | None => Some bad
    | Some v => if v <? 8 then Some bad else Some (inl (mkNeg (u16 v) (n_timeout g) (n_window g) (n_tsize g) (n_have g)))
    end
  else do k2 <- striceq buf key s_timeout;
  if k2 : bool then
    if negb (asked OPT_TIMEOUT) then Some bad else
    do n <- parse_u32 buf value 255;
    match n with
    | None => Some bad
    | Some v => if v =? 0 then Some bad else Some (inl (mkNeg (n_blksize g) (u16 v) (n_window g) (n_tsize g) (n_have g)))
    end
  else do k3 <- striceq buf key s_tsize;
  if k3 : bool then
    if negb (asked OPT_TSIZE) then Some bad else
    do n <- parse_u32 buf value 4294967295;
    match n with
    | None => Some bad
    | Some v => Some (inl (mkNeg (n_blksize g) (n_timeout g) (n_window g) v true))
    end
  else do k4 <- striceq buf key s_windowsize;
  if k4 : bool then
    if negb (asked OPT_WINDOWSIZE) then Some bad else
    do n <- parse_u32 buf value MAX_WINDOWSIZE;
    match n with
    | None => Some bad
    | Some v => if v =? 0 then Some bad else Some (inl (mkNeg (n_blksize g) (n_timeout g) (u16 v) (n_tsize g) (n_have g)))
    end
  else Some bad.

Fixpoint oack_options (fuel : nat) (buf : list Z) (p req : Z) (g : neg) : option (neg + Z) :=
  if zlen buf <=? p then Some (inl g) else
  match fuel with
  | O => None
  | S n =>
    do kv <- next_kv buf p;
    match kv with
    | None => Some (inr ERR_PACKET)
    | Some (key, value, p') =>
      do r <- oack_option buf key value req g;
      match r with inr e => Some (inr e) | inl g => oack_options n buf p' req g end
    end
  end.

(** wolftftp.c:497-563 wolftftp_parse_oack *)
Definition parse_oack (buf : list Z) (g : neg) (req : Z) : option (neg + Z) :=
  if zlen buf <? 2 then Some (inr ERR_PACKET) else
  do op <- read_u16 buf 0;
  if negb (op =? OP_OACK) then Some (inr ERR_PACKET) else
  oack_options (length buf) buf 2 req g.

(** wolftftp.c:565-576 wolftftp_parse_data: block number and data *)
Definition parse_data (buf : list Z) : option (option (Z * list Z)) :=
  if zlen buf <? 4 then Some None else
  do op <- read_u16 buf 0;
  if negb (op =? OP_DATA) then Some None else
  do b <- read_u16 buf 2;
  do d <- mread buf 4 (u16 (zlen buf - 4));
  Some (Some (b, d)).
(** wolftftp.c:578-583 *)
Definition packet_opcode (buf : list Z) : option Z := if zlen buf <? 2 then Some (-1) else read_u16 buf 0.
(** wolftftp.c:585-593 *)
Definition tftp_deadline (n : neg) (now : Z) : Z :=
  let d := u32 (now + u32 (n_timeout n * 1000)) in if d =? 0 then 1 else d.
