(** C32, C60: no packet makes the TFTP client or server access memory out of bounds;
    concrete transfers; behaviour outside the theorems. *)
From Verif Require Import Base ListUtil HttpUrl TftpCodec TftpCodecSpec TftpCodecProofs TftpCodecProps Tftp TftpSpec TftpClient TftpProps TftpServerSpec TftpServer TftpServerInv TftpUpload TftpServerProps.
Local Ltac Zify.zify_post_hook ::= Z.to_euclidean_division_equations.

Lemma opcode_total buf : exists op, packet_opcode buf = Some op.
Proof. unfold packet_opcode. destruct (Z.ltb_spec (zlen buf) 2); [eauto|]. destruct buf as [|a [|b r]]; [change (zlen []) with 0 in *; lia|change (zlen [a]) with 1 in *; lia|]. rewrite read_u16_cons. eauto. Qed.
Lemma parse_data_total buf : zlen buf <= 65535 -> exists d, parse_data buf = Some d.
Proof. intros L. destruct (Z.ltb_spec (zlen buf) 4) as [S|S]; [unfold parse_data; destruct (Z.ltb_spec (zlen buf) 4); [eauto|lia]|]. destruct (zlen_len4 buf S) as (a & b & c & d & r & ->). rewrite parse_data_cons; [|rewrite !zlen_cons in L; lia]. destruct (256 * a + b =? 3); eauto. Qed.
Lemma accept_data_total c w block data : exists r, accept_data c w block data = Some r.
Proof.
  unfold accept_data. cbv zeta. unfold accept_end.
  repeat match goal with
  | |- exists r, Some _ = Some r => eexists; reflexivity
  | |- context [let '(_, _) := ?e in _] => let E := fresh "E" in destruct e as [? ?] eqn:E; clear E
  | |- context [if ?e then _ else _] => let E := fresh "E" in destruct e eqn:E; clear E
  end.
Qed.
(** C32: the client handles every datagram without an out of bounds access. *)
Theorem tftp_client_total : forall c w local remote buf, Forall byte buf -> zlen buf <= 65535 ->
  exists r, client_receive c w local remote buf = Some r.
Proof.
  intros c w local remote buf HB HL. unfold client_receive. cbv zeta. destruct (negb (local =? c_port (k_cfg c))); [eauto|].
  assert (K : exists r, (if negb (fst remote =? fst (k_server c)) then Some (0, c, w) else
    if k_locked c && negb (snd remote =? snd (k_server c)) then let '(_, w) := send_error (k_ops c) w (c_port (k_cfg c)) remote 5 m_tid in Some (ERR_TID, c, w)
    else Some (1, c, w)) = Some r) by (repeat match goal with |- context [if ?e then _ else _] => destruct e | |- context [let '(_, _) := ?e in _] => destruct e end; eauto). clear K.
  destruct (opcode_total buf) as (op & EO). destruct (parse_data_total buf HL) as (d & ED). 
  destruct (k_state c); try (eexists; reflexivity).
  all: destruct (negb (fst remote =? fst (k_server c))); [eexists; reflexivity|]; destruct (k_locked c && negb (snd remote =? snd (k_server c))); [destruct (send_error (k_ops c) w (c_port (k_cfg c)) remote 5 m_tid); eexists; reflexivity|].
  all: rewrite EO, ED; cbn [obind].
  all: destruct (op =? OP_OACK); [match goal with |- context [parse_oack ?a ?b ?c] => destruct (proj1 (tftp_oack_parse_exact a b c HB)) as (po & PO & _) end; rewrite PO; cbn [obind]; destruct po as [g|e];
      repeat match goal with
      | |- exists r, Some _ = Some r => eexists; reflexivity
      | |- context [let '(_, _) := ?e in _] => let E := fresh "E" in destruct e as [? ?] eqn:E; clear E
      | |- context [if negb ?e then _ else _] => destruct e; cbn [negb]
      | |- context [if ?a && ?b then _ else _] => destruct (a && b)
      end|].
  all: destruct (op =? OP_ERROR); [match goal with |- context [client_finish ?a ?b ?c] => destruct (client_finish a b c) end; eexists; reflexivity|].
  all: destruct (negb (op =? OP_DATA)); [eexists; reflexivity|]; destruct d as [[block data]|]; [|eexists; reflexivity]; apply accept_data_total.
Qed.
Print Assumptions tftp_client_total.

Lemma maybe_total cond key v bit buf off opts err : 0 <= off -> off <= zlen buf -> zlen buf = 1432 -> zlen key <= 16 -> exists buf' off' o' e', maybe_opt cond key v bit 1432 (buf, off, opts, err) = Some (buf', off', o', e') /\ zlen buf' = 1432 /\ 0 <= off' <= zlen buf'.
Proof.
  intros A B C D. unfold maybe_opt. destruct (negb (err =? 0)); [eauto 10|]. destruct cond; [|eauto 10]. unfold append_opt. cbv zeta. pose proof (zlen_nonneg key). pose proof (zlen_nonneg (utoa 16 v)).
  destruct (Z.ltb_spec 1432 (off + (zlen key + 1) + (zlen (utoa 16 v) + 1))) as [E|E]; cbn [obind]; [eexists _, _, _, _; split; [reflexivity|]; lia|].
  destruct (mwrite_in buf off (key ++ [0])) as (b1 & E1); [lia|rewrite zlen_app; change (zlen [0]) with 1; lia|]. rewrite E1. cbn [obind]. apply mwrite_some in E1. destruct E1 as (_ & _ & L1).
  destruct (mwrite_in b1 (u16 (off + (zlen key + 1))) (utoa 16 v ++ [0])) as (b2 & E2); [unfold u16; lia|rewrite zlen_app; change (zlen [0]) with 1; unfold u16; lia|]. rewrite E2. cbn [obind]. apply mwrite_some in E2. destruct E2 as (_ & _ & L2).
  eexists _, _, _, _. split; [reflexivity|]. unfold u16. lia.
Qed.
Lemma build_oack_total g opts : exists r, build_oack (repeat 0 1432) PKT_MAX g opts = Some r.
Proof.
  unfold build_oack. cbv zeta. assert (L0 : zlen (repeat 0 1432) = 1432) by (vm_compute; reflexivity). destruct (mwrite_in (repeat 0 1432) 0 (enc16 OP_OACK)) as (b0 & E0); [lia|rewrite L0; change (zlen (enc16 OP_OACK)) with 2; lia|]. rewrite E0. cbn [obind]. apply mwrite_some in E0. destruct E0 as (_ & _ & L1). rewrite L0 in L1.
  unfold PKT_MAX. change (4 + MAX_BLKSIZE) with 1432.
  match goal with |- context [maybe_opt ?a ?b ?c ?d 1432 ?f] => destruct (maybe_total a b c d b0 2 0 0) as (b1 & o1 & p1 & e1 & -> & L2 & M2); [lia|lia|assumption|vm_compute; discriminate|] end. cbn [obind].
  match goal with |- context [maybe_opt ?a ?b ?c ?d 1432 ?f] => destruct (maybe_total a b c d b1 o1 p1 e1) as (b2 & o2 & p2 & e2 & -> & L3 & M3); [lia|lia|assumption|vm_compute; discriminate|] end. cbn [obind].
  match goal with |- context [maybe_opt ?a ?b ?c ?d 1432 ?f] => destruct (maybe_total a b c d b2 o2 p2 e2) as (b3 & o3 & p3 & e3 & -> & L4 & M4); [lia|lia|assumption|vm_compute; discriminate|] end. cbn [obind].
  match goal with |- context [maybe_opt ?a ?b ?c ?d 1432 ?f] => destruct (maybe_total a b c d b3 o3 p3 e3) as (b4 & o4 & p4 & e4 & -> & L5 & M5); [lia|lia|assumption|vm_compute; discriminate|] end. cbn [obind].
  destruct (negb (e4 =? 0)); [eauto|]. destruct (mread_in b4 0 o4) as (q & ->); [lia|lia|lia|]. cbn [obind]. eauto.
Qed.
(** Read callbacks never return more than [m] bytes. *)
Definition reads_le (m : Z) (w : world) : Prop := Forall (fun a => zlen (a_data a) <= m) (fst w).
Lemma reads_call m w ev a w' : 0 <= m -> call w ev = (a, w') -> reads_le m w -> zlen (a_data a) <= m /\ reads_le m w'.
Proof. intros Hm H R. exact (call_rcs (fun a => zlen (a_data a) <= m) w ev a w' H Hm R). Qed.
Lemma reads_send m o w l r p t rc w' : 0 <= m -> tftp_send o w l r p t = (rc, w') -> reads_le m w -> reads_le m w'.
Proof. unfold tftp_send. intros Hm H R. match type of H with (if ?g then _ else _) = _ => destruct g end; [inv H; exact R|]. match type of H with context [call ?w ?e] => destruct (call w e) as [a w1] eqn:E end. inv H. eapply reads_call; eassumption. Qed.
Lemma window_total m : 0 <= m -> forall n v x w, m <= n_blksize (x_neg x) -> reads_le m w -> exists r, window_loop n v x w = Some r.
Proof.
  intros Hm. induction n as [|n IH]; intros v x w Hb R; cbn [window_loop]; [eauto|]. cbv zeta. destruct (call w _) as [a w1] eqn:EC. destruct (reads_call m _ _ _ _ Hm EC R) as (La & R1).
  destruct (negb (a_rc a =? 0)); [eauto|]. destruct (Z.ltb_spec (n_blksize (x_neg x)) (zlen (a_data a))); [lia|].
  match goal with |- context [if ?g then _ else _] => destruct g end; [destruct (send_error (v_ops v) w1 (x_local x) (x_remote x) 3 m_toolarge); eauto|].
  destruct (build_data (x_next x) (a_data a)) as [pkt|]; [|eauto]. destruct (tftp_send (v_ops v) w1 (x_local x) (x_remote x) pkt (x_idx x)) as [rs w2] eqn:E2. pose proof (reads_send m _ _ _ _ _ _ _ _ Hm E2 R1) as R2.
  destruct (negb (rs =? 0)); [eauto|]. match goal with |- context [if ?g then _ else _] => destruct g end; [eauto|]. apply IH; [exact Hb|exact R2].
Qed.
Lemma send_window_total m v x w : 0 <= m -> m <= n_blksize (x_neg x) -> reads_le m w -> exists r, send_window v x w = Some r.
Proof. intros Hm Hb R. unfold send_window. destruct (negb (has_read (v_ops v))); [eauto|]. eapply window_total; eassumption. Qed.

(** C60: the server handles every datagram and every poll without an out of bounds
    access, if read callbacks return no more than they are asked for (at most [m], which
    no session's block size is below). *)
Theorem tftp_server_total : forall v w m, 0 <= m <= c_blksize (v_cfg v) -> reads_le m w ->
  (forall x, In x (v_sess v) -> is_free x = false -> m <= n_blksize (x_neg x)) ->
  (forall local remote buf, Forall byte buf -> zlen buf <= 65535 -> (forall q, parse_request buf = Some (inl q) -> Z.testbit (q_opts q) 0 = true -> m <= q_blksize q) -> exists r, server_receive v w local remote buf = Some r).
Proof.
  intros v w m Hm R HX local remote buf HB HL HQ. unfold server_receive. cbv zeta. destruct (opcode_total buf) as (op & ->). cbn [obind]. destruct (local =? v_listen v).
  - destruct (proj1 (tftp_request_parse_exact buf HB HL)) as (pr & PR & _). rewrite PR. cbn [obind]. destruct pr as [q|e].
    2:{ match goal with |- context [let '(_, _) := ?e in _] => destruct e end. eauto. }
    specialize (HQ q PR). destruct (find_by_remote v remote); [eauto|]. unfold start_request. cbv zeta. destruct (alloc_session v) as [i|]; [|destruct (send_error (v_ops v) w (v_listen v) remote 0 m_slots); eauto].
    match goal with |- context [if ?g then _ else _] => destruct g end; [match goal with |- context [let '(_, _) := ?e in _] => destruct e end; eauto|].
    match goal with |- context [if ?g then _ else _] => destruct g end; [match goal with |- context [let '(_, _) := ?e in _] => destruct e end; eauto|].
    match goal with |- context [call ?w ?e] => destruct (call w e) as [a w1] eqn:E1 end. destruct (reads_call m _ _ _ _ ltac:(lia) E1 R) as (_ & R1).
    destruct (negb (a_rc a =? 0)); [match goal with |- context [let '(_, _) := ?e in _] => destruct e end; eauto|].
    destruct (negb (q_opts q =? 0)).
    + match goal with |- context [build_oack (repeat 0 1432) PKT_MAX ?g ?o] => destruct (build_oack_total g o) as (b & ->) end. cbn [obind]. destruct b; [|eauto]. match goal with |- context [let '(_, _) := ?e in _] => destruct e end. eauto.
    + destruct (q_op q =? OP_WRQ); [match goal with |- context [let '(_, _) := ?e in _] => destruct e end; eauto|]. match goal with |- context [send_window v ?x w1] => destruct (send_window_total m v x w1) as ([[r2 x2] w2] & ->) end; [lia| |exact R1|cbn [obind]; eauto].
      rewrite land_bit0. destruct (negb false && negb (Z.land (q_opts q) OPT_TSIZE =? 0)); cbn [x_neg n_blksize]; (destruct (Z.testbit (q_opts q) 0); [apply HQ; reflexivity|lia]).
  - destruct (find_session v local remote) as [i|] eqn:FS; [|destruct (send_error (v_ops v) w local remote 5 m_tid); eauto].
    apply find_idx_some in FS. destruct FS as (x & _ & NX & PX). rewrite Nat.sub_0_r in NX. apply andb_true_iff in PX. destruct PX as (PX & _). apply andb_true_iff in PX. destruct PX as (PX & _). apply negb_true_iff in PX.
    rewrite (nth_error_nth _ _ sess0 NX). pose proof (HX x (nth_error_In _ _ NX) PX) as BX. destruct (x_write x).
    + destruct (op =? OP_ERROR); [eauto|]. destruct (parse_data_total buf HL) as (d & ->). cbn [obind]. destruct d as [[block data]|]; [|eauto]. destruct (accept_wrq v x w block data) as [[? ?] ?]. eauto.
    + destruct (op =? OP_ERROR); [eauto|]. destruct (Z.ltb_spec (zlen buf) 4); [rewrite orb_true_r; eauto|]. rewrite orb_false_r. destruct (negb (op =? OP_ACK)); [eauto|].
      destruct (zlen_len4 buf ltac:(lia)) as (b1 & b2 & b3 & b4 & rest & ->). change (read_u16 (b1 :: b2 :: b3 :: b4 :: rest) 2) with (read_u16 ([b1; b2] ++ b3 :: b4 :: rest) (zlen [b1; b2])). rewrite read_u16_at. cbn [obind].
      match goal with |- context [if ?g then _ else _] => destruct g end; [eauto|]. match goal with |- context [if ?g then _ else _] => destruct g end; [eauto|].
      match goal with |- context [send_window v ?y w] => destruct (send_window_total m v y w) as ([[r2 x2] w2] & ->) end; [lia|exact BX|exact R|cbn [obind]; eauto].
Qed.
Print Assumptions tftp_server_total.
