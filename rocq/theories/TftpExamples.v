(** TFTP: concrete runs that meet the hypotheses of the theorems of TftpProps,
    TftpServerProps and TftpTotal, and runs showing what the code does not guarantee. *)
From Verif Require Import Base ListUtil HttpUrl TftpCodec TftpCodecSpec TftpCodecProofs TftpCodecProps Tftp TftpSpec TftpClient TftpProps TftpServerSpec TftpServer TftpServerInv TftpUpload TftpServerProps TftpTotal.
Local Ltac Zify.zify_post_hook ::= Z.to_euclidean_division_equations.

Definition all_ops : ops := mkOps true true true true true true true.
Definition ok_h (h : Z) : ans := mkAns 0 [] false 0 h.
Definition srv : endpoint := (167772161, 69).   (* 10.0.0.1 *)
Definition srv_tid : endpoint := (167772161, 20000).
Definition peerA : endpoint := (167772162, 4000).
Definition peerB : endpoint := (167772163, 4000).
Definition nm : list Z := [102; 119].
Definition fileF : list Z := repeat 7 512 ++ repeat 9 512 ++ repeat 5 76. (* 1100 bytes *)
Definition cl (blk : Z) : client := client_init all_ops (mkCfg 5000 blk 0 0 0 0).

(** ** Client *)
(** Callback answers: sending succeeds, the file gets handle 3. The first packet of a
    transfer opens the file before anything is sent, so its answer is the first one. *)
Definition opened (blk : Z) : option (client * world) :=
  match client_start (cl blk) ([], []) srv (nm ++ [0]) with Some (0, c, _) => Some (c, ([ok_h 3], [])) | _ => None end.
Fixpoint cfeed (st : option (client * world)) (pkts : list (list Z)) : option (client * world) :=
  match pkts with
  | [] => st
  | p :: r => match st with Some (c, w) => match client_receive c w 5000 srv_tid p with Some (_, c, w) => cfeed (Some (c, w)) r | None => None end | None => None end
  end.
Definition dp (b i : Z) : list Z := data_pkt (i mod 65536) (chunk fileF b i).
Definition view (st : option (client * world)) := match st with Some (c, w) => Some (k_state c, stored (snd w)) | None => None end.
Definition is_ack (e : event) : list Z := match e with ESend _ _ [0; 4; a; b] _ _ => [256 * a + b] | _ => [] end.
Definition acks (st : option (client * world)) := match st with Some (_, w) => flat_map is_ack (rev (snd w)) | None => [] end.

(** A download of 1100 bytes with duplicated and reordered blocks. *)
Example tftp_client_reproduces_ex :
  view (cfeed (opened 512) [dp 512 1; dp 512 1; dp 512 3; dp 512 2; dp 512 1; dp 512 3]) = Some (CComplete, Some fileF) /\
  acks (cfeed (opened 512) [dp 512 1; dp 512 1; dp 512 3; dp 512 2; dp 512 1; dp 512 3]) = [1; 1; 2; 3].
Proof. split; vm_compute; reflexivity. Qed.
Example tftp_client_session_ex : exists c0 w0 r c' w', client_start (cl 512) ([], []) srv (nm ++ [0]) = Some (0, c0, w0) /\
  client_receive c0 ([ok_h 3], []) 5000 srv_tid (dp 512 1) = Some (r, c', w') /\ session fileF 512 c0 ([ok_h 3], []) c' w' /\ nblocks (snd w') = 1.
Proof.
  destruct (client_start (cl 512) ([], []) srv (nm ++ [0])) as [[[r0 c0] w0]|] eqn:E0; [|vm_compute in E0; discriminate E0]. assert (r0 = 0) as -> by (vm_compute in E0; injection E0; auto).
  destruct (client_receive c0 ([ok_h 3], []) 5000 srv_tid (dp 512 1)) as [[[r c'] w']|] eqn:E1; [|vm_compute in E0; injection E0 as <- <-; vm_compute in E1; discriminate E1].
  exists c0, w0, r, c', w'. split; [reflexivity|]. split; [exact E1|]. split.
  - eapply s_recv; [apply s_start| | | |exact E1].
    + assert (X : forallb (fun x => (0 <=? x) && (x <? 256)) (dp 512 1) = true) by (vm_compute; reflexivity). rewrite forallb_forall in X. apply Forall_forall. intros x HI. specialize (X x HI). unfold byte. lia.
    + vm_compute. discriminate.
    + intros _ _ _. exists 1. split; [split; [lia|reflexivity]|]. split; [vm_compute; reflexivity|]. vm_compute in E0. injection E0 as <- <-. vm_compute. discriminate.
  - vm_compute in E0. injection E0 as <- <-. vm_compute in E1. injection E1 as <- <- <-. vm_compute. reflexivity.
Qed.

(** RFC 1350/2347: a server that does not acknowledge the options sends 512-byte blocks.
    A client configured for 1428 takes the first 512-byte block for the last one, and
    reports a truncated file as complete. *)
Theorem tftp_default_blocksize_refuted : exists c' w',
  cfeed (opened 1428) [dp 512 1] = Some (c', w') /\ honest_data fileF 512 1 (dp 512 1) /\
  k_state c' = CComplete /\ stored (snd w') = Some (firstn 512 fileF) /\ firstn 512 fileF <> fileF.
Proof. eexists _, _. split; [vm_compute; reflexivity|]. split; [split; [lia|reflexivity]|]. split; [reflexivity|]. split; [vm_compute; reflexivity|vm_compute; discriminate]. Qed.

Definition oack1024 : list Z := [0; 6] ++ s_blksize ++ [0; 49; 48; 50; 52; 0].
(** The ACK of an OACK could not be sent: the client waits for the first packet as
    before, and when the server, having got the retransmitted ACK, sends the first block of
    1024 bytes, it falls back to its configured 1428 and takes it for the last one. *)
Theorem tftp_oack_survives_send_failure_refuted : exists c0 w0 c' w',
  client_start (cl 1428) ([], []) srv (nm ++ [0]) = Some (0, c0, w0) /\
  cfeed (Some (c0, ([mkAns (-11) [] false 0 0; ok_h 3], []))) [oack1024; dp 1024 1] = Some (c', w') /\
  k_state c' = CComplete /\ stored (snd w') = Some (firstn 1024 fileF) /\ firstn 1024 fileF <> fileF.
Proof.
  eexists _, _, _, _. split; [vm_compute; reflexivity|]. split; [vm_compute; reflexivity|]. split; [reflexivity|]. split; [vm_compute; reflexivity|vm_compute; discriminate].
Qed.
(** Had the ACK been sent, the file would have been complete. *)
Example tftp_oack_sent_ex : view (cfeed (match opened 1428 with Some (c, _) => Some (c, ([ans0; ok_h 3], [])) | None => None end) [oack1024; dp 1024 1; dp 1024 2]) = Some (CComplete, Some fileF).
Proof. vm_compute. reflexivity. Qed.

(** The final ACK could not be sent: the file is stored, but the transfer is never
    verified or completed, whatever blocks are received again. *)
Theorem tftp_final_ack_failure_recovers_refuted : exists c0 w0 c' w',
  client_start (cl 1428) ([], []) srv (nm ++ [0]) = Some (0, c0, w0) /\
  cfeed (Some (c0, ([ok_h 3; ans0; ans0; mkAns (-11) [] false 0 0], []))) [dp 1428 1; dp 1428 1; dp 1428 1] = Some (c', w') /\
  k_state c' = CRecvData /\ k_final c' = true /\ stored (snd w') = Some fileF /\ ~ (exists h s, In (EVerify h s 0) (snd w')).
Proof.
  eexists _, _, _, _. split; [vm_compute; reflexivity|]. split; [vm_compute; reflexivity|]. split; [reflexivity|]. split; [reflexivity|]. split; [vm_compute; reflexivity|].
  intros (h & s & I). cbn [In snd] in I. intuition discriminate.
Qed.

(** ** Server *)
Definition server0 : server := server_init all_ops (mkCfg 0 0 0 0 0 0).
Fixpoint run (v : server) (w : world) (l : list sop) : option (server * world) :=
  match l with
  | [] => Some (v, w)
  | SRecv lo re b :: r => match server_receive v w lo re b with Some (_, v, w) => run v w r | None => None end
  | SPoll t :: r => match server_poll v w t with Some (v, w) => run v w r | None => None end
  end.
Definition bytesb (b : list Z) : bool := forallb (fun x => (0 <=? x) && (x <? 256)) b && (zlen b <=? 65535).
Definition opsb (l : list sop) : bool := forallb (fun x => match x with SRecv _ _ b => bytesb b | _ => true end) l.
Lemma run_reach o c a l : forall hist v w v' w', reach o c a hist v w -> opsb l = true -> run v w l = Some (v', w') -> reach o c a (rev l ++ hist) v' w'.
Proof.
  induction l as [|x l IH]; intros hist v w v' w' R B H; cbn [run] in H; [injection H as <- <-; exact R|]. cbn [opsb forallb] in B. apply andb_true_iff in B. destruct B as (B1 & B2). cbn [rev]. rewrite <- app_assoc. cbn [app].
  destruct x as [lo re b|t].
  - destruct (server_receive v w lo re b) as [[[r v1] w1]|] eqn:E; [|discriminate]. eapply IH; [|exact B2|exact H]. unfold bytesb in B1. apply andb_true_iff in B1. destruct B1 as (B0 & B1).
    eapply r_recv; [exact R| |lia|exact E]. rewrite forallb_forall in B0. apply Forall_forall. intros y HI. specialize (B0 y HI). unfold byte. lia.
  - destruct (server_poll v w t) as [[v1 w1]|] eqn:E; [|discriminate]. eapply IH; [|exact B2|exact H]. eapply r_poll; eassumption.
Qed.
Definition octet : list Z := [0; 111; 99; 116; 101; 116; 0].
Definition rrq : list Z := [0; 1] ++ nm ++ octet.
Definition wrq : list Z := [0; 2] ++ nm ++ octet.
Definition ack (i : Z) : list Z := [0; 4; i / 256; i mod 256].
Definition blk (i : Z) : ans := mkAns 0 (chunk fileF 512 i) (i =? 3) 0 0.
(** The DATA packets sent, oldest first: to whom and which block. *)
Definition datas (st : option (server * world)) : list (endpoint * Z) :=
  match st with Some (_, w) => flat_map (fun e => match e with ESend _ r (0 :: 3 :: a :: b :: _) _ _ => [(r, 256 * a + b)] | _ => [] end) (rev (snd w)) | None => [] end.
Definition closes (st : option (server * world)) : list (Z * Z) :=
  match st with Some (_, w) => flat_map (fun e => match e with EClose h s => [(h, s)] | _ => [] end) (rev (snd w)) | None => [] end.

(** A download: open, three blocks, a retransmission after a timeout, close. *)
Definition dl_answers : list ans := [ok_h 3; blk 1; ans0; blk 2; ans0; blk 2; ans0; blk 3; ans0].
Definition dl : list sop := [SRecv 69 peerA rrq; SRecv 20000 peerA (ack 1); SPoll 1; SPoll 2000; SRecv 20000 peerA (ack 2); SRecv 20000 peerA (ack 3)].
Example tftp_server_data_honest_ex :
  datas (run server0 (dl_answers, []) dl) = [(peerA, 1); (peerA, 2); (peerA, 2); (peerA, 3)] /\ closes (run server0 (dl_answers, []) dl) = [(3, 0)] /\
  exists v w, run server0 (dl_answers, []) dl = Some (v, w) /\ reach all_ops (mkCfg 0 0 0 0 0 0) dl_answers (rev dl) v w.
Proof.
  split; [vm_compute; reflexivity|]. split; [vm_compute; reflexivity|]. destruct (run server0 (dl_answers, []) dl) as [[v w]|] eqn:E; [|vm_compute in E; discriminate E].
  exists v, w. split; [reflexivity|]. rewrite <- (app_nil_r (rev dl)). eapply run_reach; [apply r_init|vm_compute; reflexivity|exact E].
Qed.

(** An upload, with a duplicated block, while another peer is reading. *)
Definition up : list sop := [SRecv 69 peerA wrq; SRecv 69 peerB rrq; SRecv 20000 peerA (dp 512 1); SRecv 20000 peerA (dp 512 1); SRecv 20000 peerA (dp 512 2); SRecv 20000 peerA (dp 512 3)].
Definition up_answers : list ans := [ok_h 3; ans0; ok_h 4; blk 1].
Definition stored_of (h : Z) (st : option (server * world)) := match st with Some (_, w) => stored_h h (snd w) | None => None end.
Definition states (st : option (server * world)) := match st with Some (v, _) => map is_free (v_sess v) | None => [] end.
Example tftp_server_stores_ex :
  stored_of 3 (run server0 (up_answers, []) up) = Some fileF /\ closes (run server0 (up_answers, []) up) = [(3, 0)] /\
  states (run server0 (up_answers, []) up) = [true; false; true; true] /\ datas (run server0 (up_answers, []) up) = [(peerB, 1)].
Proof. repeat split; vm_compute; reflexivity. Qed.

(** Reclaiming: a reader that never answers is dropped at the seventh poll
    (max_retries is 5 by default), and its file closed. *)
Example tftp_server_reclaims_ex :
  states (run server0 ([ok_h 3; blk 1], []) (SRecv 69 peerA rrq :: map SPoll [1; 2000; 4000; 6000; 8000; 10000])) = [false; true; true; true] /\
  states (run server0 ([ok_h 3; blk 1], []) (SRecv 69 peerA rrq :: map SPoll [1; 2000; 4000; 6000; 8000; 10000; 12000])) = [true; true; true; true] /\
  closes (run server0 ([ok_h 3; blk 1], []) (SRecv 69 peerA rrq :: map SPoll [1; 2000; 4000; 6000; 8000; 10000; 12000])) = [(3, ERR_TIMEOUT)].
Proof. repeat split; vm_compute; reflexivity. Qed.

(** A duplicated ACK is answered with the next block although the previous one is not
    acknowledged, and that previous block is never sent again: block 2, lost once, is not
    among the blocks of any retransmission. The transfer cannot end well. *)
Theorem tftp_lost_block_resent_refuted :
  let st := run server0 ([ok_h 3; blk 1; ans0; blk 2; ans0; blk 3; ans0; blk 3; ans0; blk 3; ans0; blk 3; ans0; blk 3; ans0; blk 3], [])
    (SRecv 69 peerA rrq :: SRecv 20000 peerA (ack 1) :: SRecv 20000 peerA (ack 1) :: map SPoll [1; 2000; 4000; 6000; 8000; 10000; 12000]) in
  datas st = [(peerA, 1); (peerA, 2); (peerA, 3); (peerA, 3); (peerA, 3); (peerA, 3); (peerA, 3); (peerA, 3)] /\ closes st = [(3, ERR_TIMEOUT)].
Proof. split; vm_compute; reflexivity. Qed.

(** The final ACK of an upload is lost: the server has forgotten the session and answers
    the retransmitted last block with an error, so the client takes a stored file for failed. *)
Definition errs (st : option (server * world)) : list (endpoint * Z) :=
  match st with Some (_, w) => flat_map (fun e => match e with ESend _ r (0 :: 5 :: a :: b :: _) _ _ => [(r, 256 * a + b)] | _ => [] end) (rev (snd w)) | None => [] end.
Theorem tftp_final_ack_repeated_refuted :
  let st := run server0 (up_answers, []) (up ++ [SRecv 20000 peerA (dp 512 3)]) in stored_of 3 st = Some fileF /\ errs st = [(peerA, 5)].
Proof. split; vm_compute; reflexivity. Qed.

(** RFC 1350: a WRQ without options means 512-byte blocks. A server configured for
    1428 takes the first full block for the last, and stores a truncated file as complete. *)
Theorem tftp_server_default_blocksize_refuted :
  let st := run (server_init all_ops (mkCfg 0 1428 0 0 0 0)) ([ok_h 3], []) [SRecv 69 peerA wrq; SRecv 20000 peerA (dp 512 1)] in
  closes st = [(3, 0)] /\ stored_of 3 st = Some (firstn 512 fileF).
Proof. split; vm_compute; reflexivity. Qed.

(** A server configured for windows of 4 sends 4 blocks at once to a client that
    did not ask for the windowsize option (RFC 7440: a window of 1). *)
Theorem tftp_window_needs_option_refuted :
  datas (run (server_init all_ops (mkCfg 0 0 0 4 0 0)) ([ok_h 3; blk 1; ans0; blk 2; ans0; blk 3], []) [SRecv 69 peerA rrq]) = [(peerA, 1); (peerA, 2); (peerA, 3)].
Proof. vm_compute. reflexivity. Qed.
(** A server configured for 512-byte blocks agrees to 1428 (its buffer's limit). *)
Theorem tftp_server_blksize_limit_refuted :
  let v := server_init all_ops (mkCfg 0 512 0 0 0 0) in
  exists x w, run v ([ok_h 3], []) [SRecv 69 peerA (rrq ++ s_blksize ++ [0; 49; 52; 50; 56; 0])] = Some (put v 0 x, w) /\ n_blksize (x_neg x) = 1428.
Proof. eexists _, _. split; [vm_compute; reflexivity|reflexivity]. Qed.
(** Totality: the bound on reads of [tftp_server_total] holds of an application that reads no more than 512 bytes. *)
Example tftp_server_total_ex : reads_le 512 (dl_answers, []) /\ 0 <= 512 <= c_blksize (v_cfg server0).
Proof. split; [|vm_compute; intuition discriminate]. unfold reads_le, dl_answers. cbn [fst]. repeat constructor; vm_compute; discriminate. Qed.
