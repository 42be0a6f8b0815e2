(** The TFTP client and server state machines.
    Source: /repo/src/tftp/wolftftp.c:187-232, 595-1330.
    Callbacks (transport send, io open/read/write/hash/verify/close) are answered by an
    arbitrary oracle (a list of answers, consumed in call order; the default answer is
    "success, no data") and recorded in a log, newest first. [None] is undefined
    behaviour (an access out of bounds, or a read callback that returns more bytes than
    it was asked for). Simplifications: NULL objects are not passed; last_tx and
    last_tx_len are one list; the file name is kept without its 0 and stays the one
    given to the last start; filename, file_size, last_status of a server session and
    request_sent of a client are written but never read, and left out. *)
From Verif Require Import Base ListUtil HttpUrl TftpCodec.

(** ** Callbacks *)
Record ans := mkAns { a_rc : Z; a_data : list Z; a_last : bool; a_size : Z; a_handle : Z }.
Definition ans0 : ans := mkAns 0 [] false 0 0.
Definition endpoint : Type := (Z * Z)%type. (* ip, port: wolftftp.h:125-128 *)
Inductive event :=
| ESend (local : Z) (remote : endpoint) (pkt : list Z) (rc : Z) (tag : Z)
| EOpen (name : list Z) (is_write : bool) (hint : Z) (rc handle size : Z) (peer : endpoint)
| ERead (handle off max rc : Z) (data : list Z) (last : bool)
| EWrite (handle off : Z) (data : list Z) (rc : Z)
| EHash (handle : Z) (data : list Z) (rc : Z)
| EVerify (handle total rc : Z)
| EClose (handle status : Z).
(** [peer] is a ghost: the endpoint the file is opened for (the callback does not get it). *)
Definition world : Type := (list ans * list event)%type.
Definition pull (w : world) : ans * list ans := match fst w with [] => (ans0, []) | a :: r => (a, r) end.
(** A callback: the answer, and the world with the event logged. *)
Definition call (w : world) (ev : ans -> event) : ans * world := let '(a, r) := pull w in (a, (r, ev a :: snd w)).

(** Which callbacks are set (wolftftp.h:176-189). *)
Record ops := mkOps { has_send : bool; has_open : bool; has_read : bool; has_write : bool; has_hash : bool; has_verify : bool; has_close : bool }.

(** wolftftp.c:187-195 wolftftp_send. [tag] is a ghost: the running number of a DATA
    block (0 for other packets); it is only recorded in the log. *)
Definition tftp_send (o : ops) (w : world) (local : Z) (remote : endpoint) (pkt : list Z) (tag : Z) : Z * world :=
  if negb (has_send o) || (zlen pkt =? 0) then (- EINVAL, w) else
  let '(a, w) := call w (fun a => ESend local remote pkt (a_rc a) tag) in (a_rc a, w).

(** Error texts. *)
Definition m_toolarge : list Z := [105; 109; 97; 103; 101; 32; 116; 111; 111; 32; 108; 97; 114; 103; 101].
Definition m_open : list Z := [111; 112; 101; 110; 32; 102; 97; 105; 108; 101; 100].
Definition m_write : list Z := [119; 114; 105; 116; 101; 32; 102; 97; 105; 108; 101; 100].
Definition m_hash : list Z := [104; 97; 115; 104; 32; 102; 97; 105; 108; 101; 100].
Definition m_tid : list Z := [117; 110; 107; 110; 111; 119; 110; 32; 116; 105; 100].
Definition m_slots : list Z := [110; 111; 32; 115; 108; 111; 116; 115].
Definition m_io : list Z := [105; 111; 32; 117; 110; 97; 118; 97; 105; 108; 97; 98; 108; 101].
Definition m_unsup : list Z := [117; 110; 115; 117; 112; 112; 111; 114; 116; 101; 100].
Definition m_badreq : list Z := [98; 97; 100; 32; 114; 101; 113; 117; 101; 115; 116].
(** wolftftp.c:595-619 wolftftp_send_client_error / wolftftp_send_server_error *)
Definition send_error (o : ops) (w : world) (local : Z) (remote : endpoint) (code : Z) (msg : list Z) : Z * world :=
  match build_error 64 code msg with None => (ERR_PACKET, w) | Some p => tftp_send o w local remote p 0 end.

(** ** Client (wolftftp.h:191-217) *)
Inductive cst := CIdle | CWaitFirst | CRecvData | CComplete | CError.
Record client := mkC { k_ops : ops; k_cfg : cfg; k_neg : neg; k_server : endpoint; k_handle : Z; k_last : list Z;
  k_off : Z; k_total : Z; k_adv : Z; k_deadline : Z; k_expected : Z; k_acked : Z; k_wcount : Z; k_retries : Z;
  k_status : Z; k_state : cst; k_req : Z; k_final : bool; k_locked : bool; k_name : list Z }.

(** wolftftp.c:621-636 wolftftp_client_init *)
Definition client_init (o : ops) (c : cfg) : client :=
  let c := cfg_defaults c in
  mkC o c (neg_defaults c) (0, 0) 0 [] 0 0 0 0 0 0 0 0 0 CIdle 0 false false [].

(** wolftftp.c:197-211 wolftftp_client_finish *)
Definition client_finish (c : client) (w : world) (status : Z) : client * world :=
  let w := if has_close (k_ops c) && negb (k_handle c =? 0) then snd (call w (fun _ => EClose (k_handle c) status)) else w in
  (mkC (k_ops c) (k_cfg c) (k_neg c) (k_server c) 0 [] (k_off c) (k_total c) (k_adv c) 0 (k_expected c) (k_acked c) (k_wcount c) (k_retries c)
       status (if status =? 0 then CComplete else CError) (k_req c) (k_final c) (k_locked c) (k_name c), w).

(** wolftftp.c:648-689 wolftftp_client_start_rrq. [name] includes its 0. *)
Definition client_start (c : client) (w : world) (server : endpoint) (name : list Z) : option (Z * client * world) :=
  match k_state c with CWaitFirst | CRecvData => Some (ERR_STATE, c, w) | _ =>
  do (r, nm) <- copy_string name;
  if negb (r =? 0) then Some (r, c, w) else
  let server := (fst server, if snd server =? 0 then 69 else snd server) in
  let c := mkC (k_ops c) (k_cfg c) (neg_defaults (k_cfg c)) server 0 (k_last c) 0 0 0 (k_deadline c) 1 0 0 0 (k_status c) (k_state c) (k_req c) false false nm in
  do (r, (buf, bits, len)) <- build_request (repeat 0 256) REQ_BUF_MAX OP_RRQ name (k_cfg c) 0;
  let last := if r =? 0 then firstn (Z.to_nat len) buf else k_last c in
  let c := mkC (k_ops c) (k_cfg c) (k_neg c) server 0 last 0 0 0 (k_deadline c) 1 0 0 0 (k_status c) (k_state c) bits false false nm in
  if negb (r =? 0) then Some (r, c, w) else
  let '(r, w) := tftp_send (k_ops c) w (c_port (k_cfg c)) server last 0 in
  if negb (r =? 0) then Some (r, c, w) else
  Some (0, mkC (k_ops c) (k_cfg c) (k_neg c) server 0 last 0 0 0 0 1 0 0 0 0 CWaitFirst bits false false nm, w)
  end.

(** wolftftp.c:638-646 wolftftp_client_open_sink: return value, handle *)
Definition open_sink (c : client) (w : world) : Z * Z * world :=
  if negb (has_open (k_ops c)) || negb (has_write (k_ops c)) then (ERR_IO, k_handle c, w) else
  let '(a, w) := call w (fun a => EOpen (k_name c) true (k_adv c) (a_rc a) (a_handle a) (a_size a) (k_server c)) in (a_rc a, a_handle a, w).

Definition set_handle (c : client) (h : Z) : client :=
  mkC (k_ops c) (k_cfg c) (k_neg c) (k_server c) h (k_last c) (k_off c) (k_total c) (k_adv c) (k_deadline c) (k_expected c) (k_acked c) (k_wcount c) (k_retries c)
      (k_status c) (k_state c) (k_req c) (k_final c) (k_locked c) (k_name c).
Definition set_last (c : client) (l : list Z) : client :=
  mkC (k_ops c) (k_cfg c) (k_neg c) (k_server c) (k_handle c) l (k_off c) (k_total c) (k_adv c) (k_deadline c) (k_expected c) (k_acked c) (k_wcount c) (k_retries c)
      (k_status c) (k_state c) (k_req c) (k_final c) (k_locked c) (k_name c).

(** wolftftp.c:748-760, the end of an accepted block: verify and finish, or go on *)
Definition accept_end (c : client) (w : world) : option (Z * client * world) :=
  if k_final c then
    let '(r, w) := if has_verify (k_ops c) then let '(a, w) := call w (fun a => EVerify (k_handle c) (k_total c) (a_rc a)) in (a_rc a, w) else (0, w) in
    if negb (r =? 0) then let '(c, w) := client_finish c w ERR_VERIFY in Some (ERR_VERIFY, c, w)
    else let '(c, w) := client_finish c w 0 in Some (0, c, w)
  else Some (0, mkC (k_ops c) (k_cfg c) (k_neg c) (k_server c) (k_handle c) (k_last c) (k_off c) (k_total c) (k_adv c) (k_deadline c) (k_expected c) (k_acked c) (k_wcount c) (k_retries c)
      (k_status c) CRecvData (k_req c) (k_final c) (k_locked c) (k_name c), w).

(** wolftftp.c:691-770 wolftftp_client_accept_data *)
Definition accept_data (c : client) (w : world) (block : Z) (data : list Z) : option (Z * client * world) :=
  let dl := zlen data in
  let o := k_ops c in
  let local := c_port (k_cfg c) in
  let fail code msg status (c : client) w :=
    let '(_, w) := send_error o w local (k_server c) code msg in
    let '(c, w) := client_finish c w status in Some (status, c, w) in
  if block =? k_expected c then
    if (u32 (4294967295 - dl) <? k_total c) || (negb (c_maximg (k_cfg c) =? 0) && (u32 (c_maximg (k_cfg c) - k_total c) <? dl))
    then fail 3 m_toolarge ERR_SIZE c w else
    let '(r, c, w) := if k_handle c =? 0 then let '(r, h, w) := open_sink c w in (r, set_handle c h, w) else (0, c, w) in
    if negb (r =? 0) then fail 2 m_open ERR_IO c w else
    let '(a, w) := call w (fun a => EWrite (k_handle c) (k_off c) data (a_rc a)) in
    if negb (a_rc a =? 0) then fail 2 m_write ERR_IO c w else
    let '(r, w) := if has_hash o && (0 <? dl) then let '(a, w) := call w (fun a => EHash (k_handle c) data (a_rc a)) in (a_rc a, w) else (0, w) in
    if negb (r =? 0) then fail 0 m_hash ERR_VERIFY c w else
    let final := dl <? n_blksize (k_neg c) in
    let wc := u16 (k_wcount c + 1) in
    let c := mkC o (k_cfg c) (k_neg c) (k_server c) (k_handle c) (k_last c) (u32 (k_off c + dl)) (u32 (k_total c + dl)) (k_adv c) (k_deadline c)
                 (u16 (k_expected c + 1)) (k_acked c) wc (k_retries c) (k_status c) (k_state c) (k_req c) final (k_locked c) (k_name c) in
    if (n_window (k_neg c) <=? wc) || final then
      let last := build_ack block in
      let '(r, w) := tftp_send o w local (k_server c) last 0 in
      if negb (r =? 0) then Some (r, set_last c last, w) else
      accept_end (mkC o (k_cfg c) (k_neg c) (k_server c) (k_handle c) last (k_off c) (k_total c) (k_adv c) (k_deadline c)
                      (k_expected c) block 0 (k_retries c) (k_status c) (k_state c) (k_req c) final (k_locked c) (k_name c)) w
    else accept_end c w
  else if (block =? k_acked c) || (block =? u16 (k_expected c - 1)) then
    if negb (zlen (k_last c) =? 0) then let '(r, w) := tftp_send o w local (k_server c) (k_last c) 0 in Some (r, c, w)
    else Some (0, c, w)
  else Some (0, c, w).

(** wolftftp.c:772-853 wolftftp_client_receive *)
Definition client_receive (c : client) (w : world) (local : Z) (remote : endpoint) (buf : list Z) : option (Z * client * world) :=
  let o := k_ops c in
  let lp := c_port (k_cfg c) in
  if negb (local =? lp) then Some (0, c, w) else
  match k_state c with
  | CWaitFirst | CRecvData =>
    if negb (fst remote =? fst (k_server c)) then Some (0, c, w) else
    if k_locked c && negb (snd remote =? snd (k_server c)) then
      let '(_, w) := send_error o w lp remote 5 m_tid in Some (ERR_TID, c, w)
    else
    do opcode <- packet_opcode buf;
    let server := (fst (k_server c), snd remote) in
    if opcode =? OP_OACK then
      let c := mkC o (k_cfg c) (k_neg c) server (k_handle c) (k_last c) (k_off c) (k_total c) (k_adv c) (k_deadline c) (k_expected c) (k_acked c) (k_wcount c) (k_retries c)
                   (k_status c) (k_state c) (k_req c) (k_final c) true (k_name c) in
      do r <- parse_oack buf (neg_defaults (k_cfg c)) (k_req c);
      match r with
      | inr e => let '(c, w) := client_finish c w e in Some (e, c, w)
      | inl g =>
        let adv := if n_have g then n_tsize g else k_adv c in
        if n_have g && negb (c_maximg (k_cfg c) =? 0) && (c_maximg (k_cfg c) <? n_tsize g) then
          let '(_, w) := send_error o w lp server 3 m_toolarge in
          let '(c, w) := client_finish (mkC o (k_cfg c) (k_neg c) server (k_handle c) (k_last c) (k_off c) (k_total c) adv (k_deadline c) (k_expected c) (k_acked c) (k_wcount c) (k_retries c)
                   (k_status c) (k_state c) (k_req c) (k_final c) true (k_name c)) w ERR_SIZE in Some (ERR_SIZE, c, w)
        else
        let last := build_ack 0 in
        let '(r, w) := tftp_send o w lp server last 0 in
        if negb (r =? 0) then
          Some (r, mkC o (k_cfg c) g server (k_handle c) last (k_off c) (k_total c) adv (k_deadline c) (k_expected c) (k_acked c) (k_wcount c) (k_retries c)
                   (k_status c) (k_state c) (k_req c) (k_final c) true (k_name c), w)
        else Some (0, mkC o (k_cfg c) g server (k_handle c) last (k_off c) (k_total c) adv 0 (k_expected c) 0 (k_wcount c) 0
                   (k_status c) CRecvData (k_req c) (k_final c) true (k_name c), w)
      end
    else if opcode =? OP_ERROR then let '(c, w) := client_finish c w ERR_IO in Some (ERR_IO, c, w)
    else if negb (opcode =? OP_DATA) then Some (ERR_PACKET, c, w)
    else
    do d <- parse_data buf;
    match d with
    | None => Some (ERR_PACKET, c, w)
    | Some (block, data) =>
      (* :834-846: if the TID is locked, its port equals the remote's (checked above) *)
      let first := match k_state c with CWaitFirst => true | _ => false end in
      accept_data (mkC o (k_cfg c) (if first then neg_defaults (k_cfg c) else k_neg c) server (k_handle c) (k_last c) (k_off c) (k_total c) (if first then 0 else k_adv c) 0
                       (k_expected c) (k_acked c) (k_wcount c) 0 (k_status c) CRecvData (k_req c) (k_final c) true (k_name c)) w block data
    end
  | _ => Some (ERR_STATE, c, w)
  end.

(** wolftftp.c:855-883 wolftftp_client_poll *)
Definition client_poll (c : client) (w : world) (now : Z) : Z * client * world :=
  match k_state c with
  | CWaitFirst | CRecvData =>
    if zlen (k_last c) =? 0 then (0, c, w) else
    let set_deadline (c : client) r := mkC (k_ops c) (k_cfg c) (k_neg c) (k_server c) (k_handle c) (k_last c) (k_off c) (k_total c) (k_adv c) (tftp_deadline (k_neg c) now)
        (k_expected c) (k_acked c) (k_wcount c) r (k_status c) (k_state c) (k_req c) (k_final c) (k_locked c) (k_name c) in
    if k_deadline c =? 0 then (0, set_deadline c (k_retries c), w) else
    if s32 (u32 (now - k_deadline c)) <? 0 then (0, c, w) else
    if c_retries (k_cfg c) <=? k_retries c then let '(c, w) := client_finish c w ERR_TIMEOUT in (ERR_TIMEOUT, c, w) else
    let '(r, w) := tftp_send (k_ops c) w (c_port (k_cfg c)) (k_server c) (k_last c) 0 in
    (r, set_deadline c (if r =? 0 then u16 (k_retries c + 1) else k_retries c), w)
  | _ => (0, c, w)
  end.

(** ** Server (wolftftp.h:219-257) *)
Inductive sst := SFree | SSendWaitAck | SRecvData.
(** [x_idx] and [x_wsidx] are ghosts: the running numbers behind next_block and
    window_start_block, without the wrap at 65536. No other field depends on them.
    States COMPLETE and ERROR never survive wolftftp_server_finish (the slot is cleared). *)
Record sess := mkS { x_remote : endpoint; x_neg : neg; x_handle : Z; x_off : Z; x_total : Z; x_deadline : Z;
  x_wsoff : Z; x_wstotal : Z; x_wsblock : Z; x_wsfinal : bool; x_local : Z; x_next : Z; x_acked : Z; x_wcount : Z; x_retries : Z;
  x_write : bool; x_optsent : bool; x_oack : Z; x_final : bool; x_state : sst; x_idx : Z; x_wsidx : Z }.
Definition sess0 : sess := mkS (0, 0) (mkNeg 0 0 0 0 false) 0 0 0 0 0 0 0 false 0 0 0 0 0 false false 0 false SFree 0 0.
Record server := mkV { v_ops : ops; v_cfg : cfg; v_listen : Z; v_base : Z; v_sess : list sess }.

(** wolftftp.c:892-907 wolftftp_server_init *)
Definition server_init (o : ops) (c : cfg) : server := mkV o (cfg_defaults c) 69 20000 [sess0; sess0; sess0; sess0].

(** wolftftp.c:213-232 wolftftp_server_finish: the slot is cleared *)
Definition server_finish (v : server) (x : sess) (w : world) (status : Z) : world :=
  if has_close (v_ops v) && negb (x_handle x =? 0) then snd (call w (fun _ => EClose (x_handle x) status)) else w.

Definition is_free (x : sess) : bool := match x_state x with SFree => true | _ => false end.
Definition ep_eqb (a b : endpoint) : bool := (fst a =? fst b) && (snd a =? snd b).
(** First index satisfying a test: the search loops of 915-922, 931-937, 946-952 *)
Fixpoint find_idx (p : sess -> bool) (l : list sess) (i : nat) : option nat :=
  match l with [] => None | x :: r => if p x then Some i else find_idx p r (S i) end.
(** wolftftp.c:909-924 *)
Definition find_session (v : server) (local : Z) (remote : endpoint) : option nat :=
  find_idx (fun x => negb (is_free x) && (x_local x =? local) && ep_eqb (x_remote x) remote) (v_sess v) 0.
(** wolftftp.c:926-939 *)
Definition find_by_remote (v : server) (remote : endpoint) : option nat :=
  find_idx (fun x => negb (is_free x) && ep_eqb (x_remote x) remote) (v_sess v) 0.
(** wolftftp.c:941-954 *)
Definition alloc_session (v : server) : option nat := find_idx is_free (v_sess v) 0.

Definition put (v : server) (i : nat) (x : sess) : server := mkV (v_ops v) (v_cfg v) (v_listen v) (v_base v) (set_nth i x (v_sess v)).

(** wolftftp.c:1028 *)
Definition window_done (x : sess) : sess :=
  mkS (x_remote x) (x_neg x) (x_handle x) (x_off x) (x_total x) (x_deadline x) (x_wsoff x) (x_wstotal x) (x_wsblock x) (x_wsfinal x) (x_local x)
      (x_next x) (x_acked x) (x_wcount x) (x_retries x) (x_write x) (x_optsent x) (x_oack x) (x_final x) SSendWaitAck (x_idx x) (x_wsidx x).
(** wolftftp.c:980-1027: the blocks of one window, [n] rounds left *)
Fixpoint window_loop (n : nat) (v : server) (x : sess) (w : world) : option (Z * sess * world) :=
  match n with
  | O => Some (0, window_done x, w)
  | S n =>
    let bs := n_blksize (x_neg x) in
    let '(a, w) := call w (fun a => ERead (x_handle x) (x_off x) bs (a_rc a) (a_data a) (a_last a)) in
    if negb (a_rc a =? 0) then Some (ERR_IO, x, w) else
    let data := a_data a in
    let dl := zlen data in
    if bs <? dl then None else
    if (u32 (4294967295 - dl) <? x_total x) || (negb (c_maximg (v_cfg v) =? 0) && (u32 (c_maximg (v_cfg v) - x_total x) <? dl)) then
      let '(_, w) := send_error (v_ops v) w (x_local x) (x_remote x) 3 m_toolarge in
      Some (ERR_SIZE, sess0, server_finish v x w ERR_SIZE)
    else
    match build_data (x_next x) data with
    | None => Some (ERR_PACKET, x, w)
    | Some pkt =>
      let '(r, w) := tftp_send (v_ops v) w (x_local x) (x_remote x) pkt (x_idx x) in
      if negb (r =? 0) then Some (r, x, w) else
      let short := dl <? bs in
      let x := mkS (x_remote x) (x_neg x) (x_handle x) (u32 (x_off x + dl)) (u32 (x_total x + dl)) (x_deadline x) (x_wsoff x) (x_wstotal x) (x_wsblock x) (x_wsfinal x) (x_local x)
                   (u16 (x_next x + 1)) (x_acked x) (u16 (x_wcount x + 1)) (x_retries x) (x_write x) (x_optsent x) (x_oack x) (x_final x || short) (x_state x) (x_idx x + 1) (x_wsidx x) in
      if short || a_last a then Some (0, window_done x, w) else window_loop n v x w
    end
  end.
(** wolftftp.c:963-1030 wolftftp_server_send_window *)
Definition send_window (v : server) (x : sess) (w : world) : option (Z * sess * world) :=
  if negb (has_read (v_ops v)) then Some (ERR_IO, x, w) else
  window_loop (Z.to_nat (n_window (x_neg x))) v
    (mkS (x_remote x) (x_neg x) (x_handle x) (x_off x) (x_total x) (x_deadline x) (x_off x) (x_total x) (x_next x) (x_final x) (x_local x)
         (x_next x) (x_acked x) (x_wcount x) (x_retries x) (x_write x) (x_optsent x) (x_oack x) (x_final x) (x_state x) (x_idx x) (x_idx x)) w.

Definition set_xdeadline (x : sess) (d : Z) : sess :=
  mkS (x_remote x) (x_neg x) (x_handle x) (x_off x) (x_total x) d (x_wsoff x) (x_wstotal x) (x_wsblock x) (x_wsfinal x) (x_local x)
      (x_next x) (x_acked x) (x_wcount x) (x_retries x) (x_write x) (x_optsent x) (x_oack x) (x_final x) (x_state x) (x_idx x) (x_wsidx x).
(** "ret = ...; if (ret == 0) session->deadline_ms = 0; return ret;" *)
Definition arm0 (r : Z) (x : sess) : sess := if r =? 0 then set_xdeadline x 0 else x.

(** wolftftp.c:1032-1127 wolftftp_server_start_request *)
Definition start_request (v : server) (w : world) (remote : endpoint) (q : preq) : option (Z * server * world) :=
  let o := v_ops v in
  match alloc_session v with
  | None => let '(r, w) := send_error o w (v_listen v) remote 0 m_slots in Some (r, v, w)
  | Some i =>
    let local := u16 (v_base v + Z.of_nat i) in
    let wr := q_op q =? OP_WRQ in
    let has b := negb (Z.land (q_opts q) b =? 0) in
    let c := v_cfg v in
    let g := mkNeg (if has OPT_BLKSIZE then q_blksize q else c_blksize c) (if has OPT_TIMEOUT then q_timeout q else c_timeout c)
                   (if has OPT_WINDOWSIZE then q_window q else c_window c) (q_tsize q) (has OPT_TSIZE) in
    if n_have g && negb (c_maximg c =? 0) && (c_maximg c <? n_tsize g) then
      (* :1063-1069; the handle is still NULL, so finish only clears the slot *)
      let '(_, w) := send_error o w local remote 3 m_toolarge in
      Some (ERR_SIZE, put v i sess0, w)
    else if negb (has_open o) || (negb wr && negb (has_read o)) || (wr && negb (has_write o)) then
      let '(r, w) := send_error o w (v_listen v) remote 2 m_io in Some (r, put v i sess0, w)
    else
    let hint := if n_have g then n_tsize g else 0 in
    let '(a, w) := call w (fun a => EOpen (q_name q) wr hint (a_rc a) (a_handle a) (a_size a) remote) in
    if negb (a_rc a =? 0) then
      let '(r, w) := send_error o w (v_listen v) remote 1 m_open in Some (r, put v i sess0, w)
    else
    let g := if negb wr && has OPT_TSIZE then mkNeg (n_blksize g) (n_timeout g) (n_window g) (a_size a) true else g in
    let x := mkS remote g (a_handle a) 0 0 0 0 0 0 false local 1 0 0 0 wr false 0 false (if wr then SRecvData else SSendWaitAck) 1 0 in
    if negb (q_opts q =? 0) then
      do p <- build_oack (repeat 0 1432) PKT_MAX g (q_opts q);
      match p with
      | inr e => Some (e, put v i sess0, server_finish v x w e)
      | inl pkt =>
        let '(r, w) := tftp_send o w local remote pkt 0 in
        Some (r, put v i (mkS remote g (a_handle a) 0 0 0 0 0 0 false local 1 0 0 0 wr true (q_opts q) false (x_state x) 1 0), w)
      end
    else if wr then
      let '(r, w) := tftp_send o w local remote (build_ack 0) 0 in Some (r, put v i x, w)
    else
      do (r, x, w) <- send_window v x w;
      Some (r, put v i (arm0 r x), w)
  end.

(** wolftftp.c:1129-1200 wolftftp_server_accept_wrq_data: session (cleared when finished) *)
Definition accept_wrq (v : server) (x : sess) (w : world) (block : Z) (data : list Z) : Z * sess * world :=
  let o := v_ops v in
  let dl := zlen data in
  if block =? x_next x then
    let x := mkS (x_remote x) (x_neg x) (x_handle x) (x_off x) (x_total x) (x_deadline x) (x_wsoff x) (x_wstotal x) (x_wsblock x) (x_wsfinal x) (x_local x)
                 (x_next x) (x_acked x) (x_wcount x) (x_retries x) (x_write x) false (x_oack x) (x_final x) (x_state x) (x_idx x) (x_wsidx x) in
    if (u32 (4294967295 - dl) <? x_total x) || (negb (c_maximg (v_cfg v) =? 0) && (u32 (c_maximg (v_cfg v) - x_total x) <? dl)) then
      let '(_, w) := send_error o w (x_local x) (x_remote x) 3 m_toolarge in
      (ERR_SIZE, sess0, server_finish v x w ERR_SIZE)
    else
    let '(a, w) := call w (fun a => EWrite (x_handle x) (x_off x) data (a_rc a)) in
    if negb (a_rc a =? 0) then (ERR_IO, sess0, server_finish v x w ERR_IO) else
    let '(r, w) := if has_hash o && (0 <? dl) then let '(a, w) := call w (fun a => EHash (x_handle x) data (a_rc a)) in (a_rc a, w) else (0, w) in
    if negb (r =? 0) then (ERR_VERIFY, sess0, server_finish v x w ERR_VERIFY) else
    let final := dl <? n_blksize (x_neg x) in
    let wc := u16 (x_wcount x + 1) in
    let x := mkS (x_remote x) (x_neg x) (x_handle x) (u32 (x_off x + dl)) (u32 (x_total x + dl)) (x_deadline x) (x_wsoff x) (x_wstotal x) (x_wsblock x) (x_wsfinal x) (x_local x)
                 (u16 (x_next x + 1)) (x_acked x) wc (x_retries x) (x_write x) (x_optsent x) (x_oack x) final (x_state x) (x_idx x + 1) (x_wsidx x) in
    let finish x w :=
      if final then
        let '(r, w) := if has_verify o then let '(a, w) := call w (fun a => EVerify (x_handle x) (x_total x) (a_rc a)) in (a_rc a, w) else (0, w) in
        if negb (r =? 0) then (ERR_VERIFY, sess0, server_finish v x w ERR_VERIFY)
        else (0, sess0, server_finish v x w 0)
      else (0, x, w) in
    if (n_window (x_neg x) <=? wc) || final then
      let '(r, w) := tftp_send o w (x_local x) (x_remote x) (build_ack block) 0 in
      if negb (r =? 0) then (r, x, w) else
      finish (mkS (x_remote x) (x_neg x) (x_handle x) (x_off x) (x_total x) 0 (x_wsoff x) (x_wstotal x) (x_wsblock x) (x_wsfinal x) (x_local x)
                  (x_next x) block 0 0 (x_write x) (x_optsent x) (x_oack x) final (x_state x) (x_idx x) (x_wsidx x)) w
    else finish x w
  else if (block =? x_acked x) || (block =? u16 (x_next x - 1)) then
    let '(r, w) := tftp_send o w (x_local x) (x_remote x) (build_ack block) 0 in (r, x, w)
  else (0, x, w).

(** wolftftp.c:1202-1274 wolftftp_server_receive *)
Definition server_receive (v : server) (w : world) (local : Z) (remote : endpoint) (buf : list Z) : option (Z * server * world) :=
  let o := v_ops v in
  do opcode <- packet_opcode buf;
  if local =? v_listen v then
    do r <- parse_request buf;
    match r with
    | inr e =>
      let '(r, w) := if e =? ERR_UNSUPPORTED then send_error o w (v_listen v) remote 8 m_unsup else send_error o w (v_listen v) remote 4 m_badreq in
      Some (r, v, w)
    | inl q => match find_by_remote v remote with Some _ => Some (0, v, w) | None => start_request v w remote q end
    end
  else
  match find_session v local remote with
  | None => let '(r, w) := send_error o w local remote 5 m_tid in Some (r, v, w)
  | Some i =>
    let x := nth i (v_sess v) sess0 in
    if x_write x then
      if opcode =? OP_ERROR then Some (ERR_IO, put v i sess0, server_finish v x w ERR_IO) else
      do d <- parse_data buf;
      match d with
      | None => Some (ERR_PACKET, v, w)
      | Some (block, data) => let '(r, x, w) := accept_wrq v x w block data in Some (r, put v i x, w)
      end
    else
    if opcode =? OP_ERROR then Some (ERR_IO, put v i sess0, server_finish v x w ERR_IO) else
    if negb (opcode =? OP_ACK) || (zlen buf <? 4) then Some (ERR_PACKET, v, w) else
    do b <- read_u16 buf 2;
    if negb (b =? x_acked x) && negb (b =? u16 (x_next x - 1)) && negb (x_optsent x && (b =? 0)) then Some (0, v, w) else
    let x := mkS (x_remote x) (x_neg x) (x_handle x) (x_off x) (x_total x) 0 (x_wsoff x) (x_wstotal x) (x_wsblock x) (x_wsfinal x) (x_local x)
                 (x_next x) b 0 0 (x_write x) false (x_oack x) (x_final x) (x_state x) (x_idx x) (x_wsidx x) in
    if x_final x && (b =? u16 (x_next x - 1)) then Some (0, put v i sess0, server_finish v x w 0) else
    do (r, x, w) <- send_window v x w;
    Some (r, put v i (arm0 r x), w)
  end.

(** wolftftp.c:1285-1328: one slot in wolftftp_server_poll *)
Definition poll_slot (v : server) (x : sess) (w : world) (now : Z) : option (sess * world) :=
  let o := v_ops v in
  if is_free x then Some (x, w) else
  if x_deadline x =? 0 then Some (set_xdeadline x (tftp_deadline (x_neg x) now), w) else
  if s32 (u32 (now - x_deadline x)) <? 0 then Some (x, w) else
  if c_retries (v_cfg v) <=? x_retries x then Some (sess0, server_finish v x w ERR_TIMEOUT) else
  do (x, w) <- (if x_optsent x then
      do p <- build_oack (repeat 0 1432) PKT_MAX (x_neg x) (x_oack x);
      match p with inl pkt => Some (x, snd (tftp_send o w (x_local x) (x_remote x) pkt 0)) | inr _ => Some (x, w) end
    else if x_write x then Some (x, snd (tftp_send o w (x_local x) (x_remote x) (build_ack (x_acked x)) 0))
    else
      do (_, x, w) <- send_window v (mkS (x_remote x) (x_neg x) (x_handle x) (x_wsoff x) (x_wstotal x) (x_deadline x) (x_wsoff x) (x_wstotal x) (x_wsblock x) (x_wsfinal x) (x_local x)
          (x_wsblock x) (x_acked x) (x_wcount x) (x_retries x) (x_write x) (x_optsent x) (x_oack x) (x_wsfinal x) (x_state x) (x_wsidx x) (x_wsidx x)) w;
      Some (x, w));
  Some (mkS (x_remote x) (x_neg x) (x_handle x) (x_off x) (x_total x) (tftp_deadline (x_neg x) now) (x_wsoff x) (x_wstotal x) (x_wsblock x) (x_wsfinal x) (x_local x)
            (x_next x) (x_acked x) (x_wcount x) (u16 (x_retries x + 1)) (x_write x) (x_optsent x) (x_oack x) (x_final x) (x_state x) (x_idx x) (x_wsidx x), w).
Fixpoint poll_slots (v : server) (l : list sess) (w : world) (now : Z) : option (list sess * world) :=
  match l with
  | [] => Some ([], w)
  | x :: r => do (x, w) <- poll_slot v x w now; do (r, w) <- poll_slots v r w now; Some (x :: r, w)
  end.
(** wolftftp.c:1276-1330 wolftftp_server_poll *)
Definition server_poll (v : server) (w : world) (now : Z) : option (server * world) :=
  do (l, w) <- poll_slots v (v_sess v) w now;
  Some (mkV (v_ops v) (v_cfg v) (v_listen v) (v_base v) l, w).
