(** Specification of the TFTP server, in terms of the packets it receives and sends
    and of the files it opens, reads, writes and closes (the log, newest event first). *)
From Verif Require Import Base TftpCodec Tftp TftpSpec.

(** ** Files *)
(** Handle [h] is open: for which name, for writing or not, and for which peer. *)
Fixpoint live (h : Z) (log : list event) : option (list Z * bool * endpoint) :=
  match log with
  | [] => None
  | EOpen name wr _ rc h' _ peer :: r => if (rc =? 0) && (h' =? h) then Some (name, wr, peer) else live h r
  | EClose h' _ :: r => if h' =? h then None else live h r
  | _ :: r => live h r
  end.
(** The application never hands out a handle that is 0 or still open. *)
Definition sane (log : list event) : Prop :=
  forall post pre name wr hint h size peer, log = post ++ EOpen name wr hint 0 h size peer :: pre -> h <> 0 /\ live h pre = None.
(** Reading a file open for reading gives its bytes; [file name] is the content. *)
Definition reads_from (file : list Z -> list Z) (log : list event) : Prop :=
  forall post pre h off max d last name peer, log = post ++ ERead h off max 0 d last :: pre -> live h pre = Some (name, false, peer) ->
    d = firstn (Z.to_nat max) (skipn (Z.to_nat off) (file name)).
(** The bytes written through [h] since it was opened; [None] if not contiguous. *)
Fixpoint stored_h (h : Z) (log : list event) : option (list Z) :=
  match log with
  | [] => Some []
  | EOpen _ _ _ rc h' _ _ :: r => if (rc =? 0) && (h' =? h) then Some [] else stored_h h r
  | EWrite h' off d rc :: r => if (rc =? 0) && (h' =? h) then do s <- stored_h h r; if off =? zlen s then Some (s ++ d) else None else stored_h h r
  | _ :: r => stored_h h r
  end.
Fixpoint nblocks_h (h : Z) (log : list event) : Z :=
  match log with
  | [] => 0
  | EOpen _ _ _ rc h' _ _ :: r => if (rc =? 0) && (h' =? h) then 0 else nblocks_h h r
  | EWrite h' _ _ rc :: r => if (rc =? 0) && (h' =? h) then 1 + nblocks_h h r else nblocks_h h r
  | _ :: r => nblocks_h h r
  end.

(** ** Histories of a server *)
Inductive sop := SRecv (local : Z) (remote : endpoint) (buf : list Z) | SPoll (now : Z).
(** [hist]: the operations so far, newest first. *)
Inductive reach (o : ops) (c : cfg) (l : list ans) : list sop -> server -> world -> Prop :=
| r_init : reach o c l [] (server_init o c) (l, [])
| r_recv hist v w local remote buf r v' w' : reach o c l hist v w -> Forall byte buf -> zlen buf <= 65535 ->
    server_receive v w local remote buf = Some (r, v', w') -> reach o c l (SRecv local remote buf :: hist) v' w'
| r_poll hist v w now v' w' : reach o c l hist v w -> server_poll v w now = Some (v', w') -> reach o c l (SPoll now :: hist) v' w'.

(** The block size a request gets from a server with configuration [c]. *)
Definition blk_of (c : cfg) (q : preq) : Z := if Z.testbit (q_opts q) 0 then q_blksize q else c_blksize (cfg_defaults c).
(** [remote] has asked for [q]. *)
Definition asked_by (hist : list sop) (remote : endpoint) (q : preq) : Prop :=
  exists buf, In (SRecv 69 remote buf) hist /\ parse_request buf = Some (inl q).

(** ** Uploads *)
(** Histories in which the DATA packets that a peer with a file open for writing sends
    to a session port are blocks of the content [F peer name] cut into blocks of
    [B peer name] bytes, not older or newer than 65535 blocks. All other packets are arbitrary. *)
Inductive uploads (F : endpoint -> list Z -> list Z) (B : endpoint -> list Z -> Z) (o : ops) (c : cfg) (l : list ans) : list sop -> server -> world -> Prop :=
| u_init : uploads F B o c l [] (server_init o c) (l, [])
| u_recv hist v w local remote buf r v' w' : uploads F B o c l hist v w -> Forall byte buf -> zlen buf <= 65535 ->
    (local <> 69 -> is_data buf -> forall h name, live h (snd w) = Some (name, true, remote) ->
     exists i, honest_data (F remote name) (B remote name) i buf /\ Z.abs (i - (1 + nblocks_h h (snd w))) < 65536) ->
    server_receive v w local remote buf = Some (r, v', w') -> uploads F B o c l (SRecv local remote buf :: hist) v' w'
| u_poll hist v w now v' w' : uploads F B o c l hist v w -> server_poll v w now = Some (v', w') -> uploads F B o c l (SPoll now :: hist) v' w'.
(** No peer uploads in blocks smaller than what the server takes for a full block. *)
Definition blocks_agree (B : endpoint -> list Z -> Z) (c : cfg) (hist : list sop) : Prop :=
  forall remote q, asked_by hist remote q -> q_op q = OP_WRQ -> blk_of c q <= B remote (q_name q) <= 65464.
