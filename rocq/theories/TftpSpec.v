(** Specification of TFTP transfers, in terms of the packets delivered and of the calls
    the code makes to the application (the log of events, newest first). *)
From Verif Require Import Base TftpCodec Tftp.

(** Block [i] (from 1) of the file [F] cut into blocks of [b] bytes: blocks past the end are empty. *)
Definition chunk (F : list Z) (b i : Z) : list Z := firstn (Z.to_nat b) (skipn (Z.to_nat ((i - 1) * b)) F).
Definition data_pkt (block : Z) (data : list Z) : list Z := [0; 3; block / 256; block mod 256] ++ data.
(** [pkt] is the DATA packet of block [i]: its number is [i] modulo 65536. *)
Definition honest_data (F : list Z) (b i : Z) (pkt : list Z) : Prop := 1 <= i /\ pkt = data_pkt (i mod 65536) (chunk F b i).
Definition is_data (pkt : list Z) : Prop := exists block data, pkt = [0; 3] ++ block ++ data /\ zlen block = 2.

(** The bytes in the file after the successful writes of a log, [None] if one of them is
    not at the end of the file. *)
Fixpoint stored (log : list event) : option (list Z) :=
  match log with
  | [] => Some []
  | EWrite _ off d rc :: r => if rc =? 0 then do s <- stored r; if off =? zlen s then Some (s ++ d) else None else stored r
  | _ :: r => stored r
  end.
Definition is_block (e : event) : bool := match e with EWrite _ _ _ rc => rc =? 0 | _ => false end.
Definition nblocks (log : list event) : Z := zlen (filter is_block log).
(** The bytes given to hash_update. *)
Fixpoint hashed (log : list event) : list Z :=
  match log with
  | [] => []
  | EHash _ d rc :: r => hashed r ++ d
  | _ :: r => hashed r
  end.

(** ** Environment of a client *)
(** The packet reaches the client of the transfer: right local port, right address and
    (once the server's port is known) right port. *)
Definition from_server (c : client) (local : Z) (remote : endpoint) : Prop :=
  local = c_port (k_cfg c) /\ fst remote = fst (k_server c) /\ (k_locked c = true -> snd remote = snd (k_server c)).
Definition active (c : client) : Prop := k_state c = CWaitFirst \/ k_state c = CRecvData.
(** The block size by which the client will recognise the last block. *)
Definition believed (c : client) : Z := match k_state c with CWaitFirst => c_blksize (k_cfg c) | _ => n_blksize (k_neg c) end.

(** Everything a client can see after its request: polls at any time; any packets at
    all, except that DATA from the server are blocks of [F], not older or newer than
    65535 blocks, and that the client does not believe in blocks longer than [b]. *)
Inductive session (F : list Z) (b : Z) (c0 : client) (w0 : world) : client -> world -> Prop :=
| s_start : session F b c0 w0 c0 w0
| s_poll c w now r c' w' : session F b c0 w0 c w -> client_poll c w now = (r, c', w') -> session F b c0 w0 c' w'
| s_recv c w local remote buf r c' w' : session F b c0 w0 c w -> Forall byte buf -> zlen buf <= 65535 ->
    (from_server c local remote -> active c -> is_data buf ->
     exists i, honest_data F b i buf /\ Z.abs (i - (1 + nblocks (snd w))) < 65536 /\ believed c <= b) ->
    client_receive c w local remote buf = Some (r, c', w') -> session F b c0 w0 c' w'.
