(** Raw and packet sockets: concrete histories meeting the hypotheses of RawProps, and
    statements one might expect that do not hold of the code ([_refuted]). *)
From Verif Require Import Base ListUtil Checksum ChecksumProps Route RouteProps Arp Fifo Forward ForwardSpec ForwardProofs ForwardStep ForwardProps Udp UdpFifo UdpSpec UdpFrames UdpInv UdpOps UdpHist UdpProps UdpExamples Raw RawSpec RawInv RawStep RawHist RawProps.

(** Running a history, keeping the trace. *)
Fixpoint rrun (st : rst) (h : list (world * rop)) : option (rst * list rdid) :=
  match h with
  | [] => Some (st, [])
  | (w, o) :: h => do (st1, r, e) <- rstep w st o; do (st2, l) <- rrun st1 h; Some (st2, mkRD w st o r e st1 :: l)
  end.
Definition rhist_ok (h : list (world * rop)) : Prop :=
  Forall (fun wo => rworld_ok (fst wo) /\ (forall st, rop_in (fst wo) st (snd wo))) h.
Lemma rrun_trace h : forall st st' l, rhist_ok h -> rrun st h = Some (st', l) -> rtrace st l st'.
Proof.
  induction h as [|[w o] h IH]; intros st st' l H E; cbn [rrun] in *; [injection E as <- <-; constructor|]. inversion H as [|? ? (A & B) C]; subst. cbn [fst snd] in *.
  destruct (rstep w st o) as [[[st1 r] e]|] eqn:E1; cbn [obind] in E; [|discriminate]. destruct (rrun st1 h) as [[st2 l2]|] eqn:E2; cbn [obind] in E; [|discriminate]. injection E as <- <-.
  econstructor; [exact A|apply B|exact E1|]. apply IH; assumption.
Qed.
Definition rafter (h : list (world * rop)) : rst := match rrun rst0 h with Some (st, _) => st | None => rst0 end.
Lemma rafter_reached h : rhist_ok h -> rreached (rafter h).
Proof. intros H. unfold rafter. destruct (rrun rst0 h) as [[st l]|] eqn:E; [exists l; eapply rrun_trace; eassumption|exists []; constructor]. Qed.
Definition rresl (h : list (world * rop)) : option (list rres) := match rrun rst0 h with Some (_, l) => Some (map e_r l) | None => None end.
Definition reve (h : list (world * rop)) : option (list rev) := match rrun rst0 h with Some (_, l) => Some (concat (map e_e l)) | None => None end.
Definition rs (l : list rop) : list (world * rop) := map (fun o => (W, o)) l.
Lemma W_rok : rworld_ok W. Proof. split; [apply W_ok|vm_compute; congruence]. Qed.
Definition silent : oracle := mkO (fun _ => None) (fun _ => true).
Ltac leaf := match goal with
  | |- frame_ok _ => split; [apply allbytes_ok; vm_compute; reflexivity|vm_compute; congruence]
  | |- Forall byte _ => apply allbytes_ok; vm_compute; reflexivity
  | |- True => exact I
  | |- header_fits _ => vm_compute; congruence
  | |- _ => unfold addr32, port_ok; vm_compute; intuition congruence
  end.
Ltac split_and := repeat match goal with |- _ /\ _ => split end.
Ltac rop_ok := cbn [rop_in fst snd]; split_and;
  match goal with
  | |- forall ip, None = Some ip -> _ => intros; discriminate
  | |- forall ip, Some _ = Some ip -> _ => let a := fresh in let E := fresh in intros a E; injection E as <-; cbn [l_addr l_proto]; split_and; leaf
  | |- forall t, nth_error _ _ = _ -> _ => intros ? _ _ _; leaf
  | |- forall k m, o_mac _ _ = _ -> _ => let m := fresh in let E := fresh in intros ? m E; cbn [o_mac silent road] in E; first [discriminate|injection E as <-; split; [reflexivity|leaf]]
  | |- _ => leaf
  end.
Ltac rhist_tac := repeat (apply Forall_cons; [split; [apply W_rok|intros ?st; rop_ok]|]); apply Forall_nil.

(** *** Receiving: two raw sockets and a packet socket *)
Definition p1 := udp PEER 9 A1 7000 [1; 2; 3].
Definition p2 := icmp PEER A1 8 7 [1; 2].
Definition hRR : list (world * rop) := rs [POpenRaw 17 false; POpenRaw 0 false; POpenPkt 0; PInIp 0 p1; PInFrame 0 p1 true; PInIp 0 p2; PInFrame 1 p2 true].
Example raw_receive_nonvacuous : rhist_ok hRR /\ rreached (rafter hRR) /\
  rresl (hRR ++ rs [PRecvRaw 0 100; PRecvRaw 0 100; PRecvRaw 1 100; PRecvRaw 1 100; PRecvRaw 1 100; PRecvPkt 0 100; PRecvPkt 0 100]) =
  Some [XZ 0; XZ 1; XZ 0; XVoid; XVoid; XVoid; XVoid; XData (skipn 14 p1) PEER; XZ (-11); XData (skipn 14 p1) PEER; XData (skipn 14 p2) PEER; XZ (-11);
        XFrame p1 0 2048 [2; 0; 0; 0; 0; 9]; XFrame p2 1 2048 [2; 0; 0; 0; 0; 9]].
Proof.
  assert (H : rhist_ok hRR) by rhist_tac. split; [exact H|]. split; [apply rafter_reached; exact H|]. vm_compute. reflexivity.
Qed.

(** *** Sending *)
Definition hSS : list (world * rop) := rs [POpenRaw 17 false; POpenPkt 0; PSendRaw 0 (Some PEER) [1; 2; 3; 4] []; PSendRaw 0 (Some (A2 + 5)) [16] [];
   PSendPkt 0 (Some (mkL 1 34525 6 [2; 0; 0; 0; 0; 7; 0; 0])) (repeat 9 20); PFlush road].
Example raw_send_nonvacuous : rhist_ok hSS /\ rreached (rafter hSS) /\
  reve hSS = Some [TxRaw 0 0 ([2; 0; 0; 0; 0; 9; 2; 0; 0; 0; 0; 1; 8; 0; 69; 0; 0; 24; 0; 0; 0; 0; 64; 17; 102; 208; 10; 0; 0; 1; 10; 0; 0; 5; 1; 2; 3; 4]);
                   TxRaw 0 1 ([2; 0; 0; 0; 0; 9; 2; 0; 0; 0; 0; 2; 8; 0; 69; 0; 0; 21; 0; 1; 0; 0; 64; 17; 247; 127; 192; 168; 1; 1; 192; 168; 1; 6; 16]);
                   TxPkt 0 1 ([2; 0; 0; 0; 0; 7; 2; 0; 0; 0; 0; 2; 134; 221; 9; 9; 9; 9; 9; 9])].
Proof.
  assert (H : rhist_ok hSS) by rhist_tac. split; [exact H|]. split; [apply rafter_reached; exact H|]. vm_compute. reflexivity.
Qed.

(** ** What does not hold *)
Lemma fifo_eq_dec (a b : fifo) : {a = b} + {a <> b}.
Proof. decide equality; first [apply Z.eq_dec|apply (list_eq_dec Z.eq_dec)|apply Bool.bool_dec]. Defined.
Lemma rsock_eq_dec (a b : rsock) : {a = b} + {a <> b}.
Proof. decide equality; first [apply Z.eq_dec|apply fifo_eq_dec|apply Bool.bool_dec]. Defined.
Lemma psock_eq_dec (a b : psock) : {a = b} + {a <> b}.
Proof. decide equality; first [apply Z.eq_dec|apply fifo_eq_dec|apply Bool.bool_dec]. Defined.
Lemma rst_eq_dec (a b : rst) : {a = b} + {a <> b}.
Proof. decide equality; first [apply Z.eq_dec|apply (list_eq_dec rsock_eq_dec)|apply (list_eq_dec psock_eq_dec)]. Defined.
(** A raw packet to a multicast group is looked up with ARP like a host's address, which
    nobody answers; it waits for ever and every packet queued behind it with it
    (wolfip.c:11606-11612: only 255.255.255.255 is special). *)
Definition hM : list (world * rop) := rs [POpenRaw 17 false; PSendRaw 0 (Some GRP) [32] []; PSendRaw 0 (Some PEER) [16] []].
Theorem raw_multicast_refuted : rhist_ok hM /\ rreached (rafter hM) /\ rresl hM = Some [XZ 0; XZ 1; XZ 1] /\
  forall n, exists st, rrun (rafter hM) (rs (repeat (PFlush silent) n)) = Some st /\ fst st = rafter hM /\ concat (map (fun d => raw_out 0 (e_e d)) (snd st)) = [] /\
    Forall (fun d => e_e d = [AskArp 0 GRP]) (snd st) /\ length (contents (r_tx (raw_at (fst st) 0))) = 2%nat.
Proof.
  assert (H : rhist_ok hM) by rhist_tac. split; [exact H|]. split; [apply rafter_reached; exact H|]. split; [vm_compute; reflexivity|].
  assert (E : rstep W (rafter hM) (PFlush silent) = Some (rafter hM, XVoid, [AskArp 0 GRP])).
  { assert (X : match rstep W (rafter hM) (PFlush silent) with Some (s, XVoid, [AskArp a b]) => (a =? 0) && (b =? GRP) && (if rst_eq_dec s (rafter hM) then true else false) | _ => false end = true) by (vm_compute; reflexivity).
    destruct (rstep W (rafter hM) (PFlush silent)) as [[[s r] e]|]; [|discriminate]. destruct r; try discriminate. destruct e as [|[] [|]]; try discriminate. rewrite !andb_true_iff in X. destruct X as ((A & B) & C).
    destruct (rst_eq_dec s (rafter hM)) as [->|]; [|discriminate]. apply Z.eqb_eq in A, B. subst. reflexivity. }
  assert (L : length (contents (r_tx (raw_at (rafter hM) 0))) = 2%nat) by (vm_compute; reflexivity). generalize dependent (rafter hM). intros s E L n. clear H.
  induction n as [|n IH].
  - exists (s, []). cbn [repeat rs map rrun]. split; [reflexivity|]. split; [reflexivity|]. split; [reflexivity|]. split; [constructor|exact L].
  - destruct IH as ([s' l] & R & F & C & D & _). cbn [fst snd] in *. subst s'. exists (s, mkRD W s (PFlush silent) XVoid [AskArp 0 GRP] s :: l).
    cbn [repeat]. change (rs (PFlush silent :: repeat (PFlush silent) n)) with ((W, PFlush silent) :: rs (repeat (PFlush silent) n)). cbn [rrun]. rewrite E. cbn [obind]. rewrite R. cbn [obind fst snd map concat e_e].
    split; [reflexivity|]. split; [reflexivity|]. split; [exact C|]. split; [constructor; [reflexivity|exact D]|exact L].
Qed.
Print Assumptions raw_multicast_refuted.

(** A packet socket remembers one interface for all its queued frames (wolfip.c:6980): a
    second sendto, to another interface, takes the first frame with it - onto the wrong
    network, under the address of the first interface. *)
Definition a0 : list Z := repeat 1 20.
Definition hI : list (world * rop) := rs [POpenPkt 0; PSendPkt 0 (Some (mkL 0 2048 6 [2; 0; 0; 0; 0; 7; 0; 0])) a0; PSendPkt 0 (Some (mkL 1 2048 6 [2; 0; 0; 0; 0; 8; 0; 0])) a0; PFlush road].
Theorem pkt_interface_kept_refuted : rhist_ok hI /\ rreached (rafter hI) /\ rresl hI = Some [XZ 0; XZ 20; XZ 20; XVoid] /\
  reve hI = Some [TxPkt 0 1 ([2; 0; 0; 0; 0; 7; 2; 0; 0; 0; 0; 1; 8; 0] ++ repeat 1 6); TxPkt 0 1 ([2; 0; 0; 0; 0; 8; 2; 0; 0; 0; 0; 2; 8; 0] ++ repeat 1 6)].
Proof.
  assert (H : rhist_ok hI) by rhist_tac. split; [exact H|]. split; [apply rafter_reached; exact H|]. split; vm_compute; reflexivity.
Qed.
Print Assumptions pkt_interface_kept_refuted.

(** Binding a packet socket to the first interface (number 0) does not restrict it to that
    interface: 0 also means every interface (wolfip.c:3018). *)
Definition hB : list (world * rop) := rs [POpenPkt 0; PBindPkt 0 0 0; PInFrame 1 p1 true; PRecvPkt 0 100].
Theorem pkt_bind_first_refuted : rhist_ok hB /\ rreached (rafter hB) /\ rresl hB = Some [XZ 0; XZ 0; XVoid; XFrame p1 1 2048 [2; 0; 0; 0; 0; 9]].
Proof.
  assert (H : rhist_ok hB) by rhist_tac. split; [exact H|]. split; [apply rafter_reached; exact H|]. vm_compute. reflexivity.
Qed.
Print Assumptions pkt_bind_first_refuted.

(** Sending narrows reception: once a raw socket, bound to nothing, has sent to a host on the
    second network it no longer receives from the first (wolfip.c:6936 writes if_idx, which
    2972 filters on). *)
Definition hN : list (world * rop) := rs [POpenRaw 17 false; PInIp 0 p1; PSendRaw 0 (Some (A2 + 5)) [16] []; PInIp 0 p1; PRecvRaw 0 100; PRecvRaw 0 100].
Theorem raw_send_narrows_refuted : rhist_ok hN /\ rreached (rafter hN) /\ rresl hN = Some [XZ 0; XVoid; XZ 1; XVoid; XData (skipn 14 p1) PEER; XZ (-11)].
Proof.
  assert (H : rhist_ok hN) by rhist_tac. split; [exact H|]. split; [apply rafter_reached; exact H|]. vm_compute. reflexivity.
Qed.
Print Assumptions raw_send_narrows_refuted.

(** The header of an IP_HDRINCL packet is not checked against its length: the checksum of a
    20-byte packet announcing a 60-byte header covers 40 bytes of uninitialised memory, and
    shows in the packet sent (wolfip.c:6873-6882, 4411-4426). *)
Definition liar : list Z := [79; 0; 0; 20; 0; 1; 0; 0; 64; 17; 0; 0; 10; 0; 0; 1; 10; 0; 0; 5].
Definition hJ (junk : list Z) : list (world * rop) := rs [POpenRaw 17 true; PSendRaw 0 (Some PEER) liar junk; PFlush road].
Theorem raw_hdrincl_leaks_refuted : ~ header_fits liar /\ rresl (hJ (repeat 0 60)) = Some [XZ 0; XZ 20; XVoid] /\
  reve (hJ (repeat 0 60)) = Some [TxRaw 0 0 ([2; 0; 0; 0; 0; 9; 2; 0; 0; 0; 0; 1; 8; 0; 79; 0; 0; 20; 0; 1; 0; 0; 64; 17; 92; 211; 10; 0; 0; 1; 10; 0; 0; 5])] /\
  reve (hJ (1 :: repeat 0 59)) = Some [TxRaw 0 0 ([2; 0; 0; 0; 0; 9; 2; 0; 0; 0; 0; 1; 8; 0; 79; 0; 0; 20; 0; 1; 0; 0; 64; 17; 91; 211; 10; 0; 0; 1; 10; 0; 0; 5])].
Proof. split; [vm_compute; intros H; apply H; reflexivity|]. split; [vm_compute; reflexivity|]. split; vm_compute; reflexivity. Qed.
Print Assumptions raw_hdrincl_leaks_refuted.
