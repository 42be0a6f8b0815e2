(** Datagram sockets: concrete histories meeting the hypotheses of UdpProps, and
    statements one might expect that do not hold of the code ([_refuted]). *)
From Verif Require Import Base ListUtil Checksum ChecksumProps Route RouteProps Arp Fifo Forward ForwardSpec ForwardProofs ForwardStep ForwardProps Udp UdpFifo UdpSpec UdpFrames UdpInv UdpOps UdpHist UdpProps.

Lemma urun_reached h : hist_ok h -> forall st0 st l, reached st0 -> urun st0 h = Some (st, l) -> reached st.
Proof.
  induction 1 as [|[w o] h (HW & HO) H IH]; intros st0 st l R E; cbn [urun] in E; [congruence|].
  destruct (ustep w st0 o) as [[[st1 r] e]|] eqn:E1; cbn [obind] in E; [|discriminate]. destruct (urun st1 h) as [[st2 l2]|] eqn:E2; cbn [obind] in E; [|discriminate]. injection E as <- <-.
  eapply IH; [|exact E2]. econstructor; [exact R|exact HW|exact HO|exact I|exact E1].
Qed.

(** ** A host with 10.0.0.1/24 and 192.168.1.1/24 *)
Definition A1 : Z := 167772161.
Definition A2 : Z := 3232235777.
Definition PEER : Z := 167772165.   (* 10.0.0.5 *)
Definition PEER2 : Z := 167772166.  (* 10.0.0.6 *)
Definition GRP : Z := 3758096385 + 255. (* 224.0.1.0 *)
Definition W : world := exW false exIfs [].
Definition WD : world := exW true [exIf 1 0 0; exIf 2 0 0] [].    (* DHCP running, no address yet *)
Lemma W_ok : uworld_ok W.
Proof. split; [apply exW_ok|intros; cbn; lia]. Qed.
Lemma WD_ok : uworld_ok WD.
Proof. unfold WD. split; [decide_world|intros; cbn; lia]. Qed.
(** A UDP datagram from [s]:[sp] to [d]:[dp]. *)
Definition udp (s sp d dp : Z) (b : list Z) : list Z := exPkt 64 s d (be16 sp ++ be16 dp ++ be16 (8 + zlen b) ++ [0; 0] ++ b).
Definition icmp (s d ty id : Z) (b : list Z) : list Z :=
  match iphdr_set_checksum ([69; 0] ++ be16 (28 + zlen b) ++ [0; 7; 64; 0; 64; 1; 0; 0] ++ be32 s ++ be32 d), fill_checksum ([ty; 0; 0; 0] ++ be16 id ++ [0; 1] ++ b) 2 with
  | Some h, Some m => [2; 0; 0; 0; 0; 1; 2; 0; 0; 0; 0; 9; 8; 0] ++ h ++ m
  | _, _ => []
  end.
Definition igmpq (ttl g : Z) : list Z :=
  match iphdr_set_checksum ([69; 0] ++ be16 28 ++ [0; 7; 64; 0; ttl; 2; 0; 0] ++ be32 PEER ++ be32 3758096385), fill_checksum ([17; 10; 0; 0] ++ be32 g) 2 with
  | Some h, Some m => [1; 0; 94; 0; 0; 1; 2; 0; 0; 0; 0; 9; 8; 0] ++ h ++ m
  | _, _ => []
  end.
Definition FD (i : Z) : Z := 512 + i.
Definition FI (i : Z) : Z := 1024 + i.
Definition road : oracle := mkO (fun _ => Some [2; 0; 0; 0; 0; 9]) (fun _ => true).

(** Running a history: what each operation returned and emitted. *)
Definition outs (h : list (world * uop)) : option (list (res * list uev)) := match urun ust0 h with Some (_, l) => Some l | None => None end.
Definition resl (h : list (world * uop)) : option (list res) := match outs h with Some l => Some (map fst l) | None => None end.
Definition after (h : list (world * uop)) : ust := match urun ust0 h with Some (st, _) => st | None => ust0 end.
Definition us (l : list uop) : list (world * uop) := map (fun o => (W, o)) l.
Lemma after_reached h : hist_ok h -> reached (after h).
Proof. intros H. unfold after. destruct (urun ust0 h) as [[st l]|] eqn:E; [|constructor]. eapply urun_reached; [exact H|constructor|exact E]. Qed.
Ltac op_ok := cbn [op_in fst snd]; unfold frame_ok; repeat match goal with |- _ /\ _ => split end; try exact I;
  try (apply allbytes_ok; vm_compute; reflexivity); try (unfold addr32, port_ok; vm_compute; intuition congruence); try (intros; vm_compute; reflexivity).
Ltac hist_ok_tac := repeat (apply Forall_cons; [split; [first [apply W_ok|apply WD_ok]|op_ok]|]); apply Forall_nil.

(** *** Receiving: two sockets, two ports, a third party; order and contents kept *)
Definition d1 := udp PEER 9 A1 7000 [1; 2; 3].
Definition d2 := udp PEER2 10 A1 7000 [4; 5].
Definition d3 := udp PEER 9 A2 7001 [6].
Definition hR : list (world * uop) := us [OSocket FUdp; OSocket FUdp; OBind (FD 0) 0 7000 true false; OBind (FD 1) A2 7001 true false; OUdp 0 d1; OUdp 0 d3; OUdp 0 d2].
Example udp_receive_nonvacuous : hist_ok hR /\ reached (after hR) /\
  resl (hR ++ us [ORecv (FD 0) 100; ORecv (FD 0) 100; ORecv (FD 0) 100; ORecv (FD 1) 100]) =
  Some [RZ 512; RZ 513; RZ 0; RZ 0; RVoid; RVoid; RVoid; RData [1; 2; 3] PEER 9; RData [4; 5] PEER2 10; RZ (-11); RData [6] PEER 9].
Proof.
  assert (H : hist_ok hR) by hist_ok_tac. split; [exact H|]. split.
  - apply after_reached. exact H.
  - vm_compute. reflexivity.
Qed.
(** The premises of [udp_reads_what_arrived] and [udp_nothing_lost]: a just opened socket
    is empty, and the rest of a history is a trace. *)
Lemma run_trace h : hist_ok h -> forall st0 st l, urun st0 h = Some (st, l) -> exists tr, trace st0 tr st /\ map d_o tr = map snd h /\ map d_r tr = map fst l.
Proof.
  induction 1 as [|[w o] h (HW & HO) H IH]; intros st0 st l E; cbn [urun] in E; [injection E as <- <-; exists []; repeat split; constructor|].
  destruct (ustep w st0 o) as [[[st1 r] e]|] eqn:E1; cbn [obind] in E; [|discriminate]. destruct (urun st1 h) as [[st2 l2]|] eqn:E2; cbn [obind] in E; [|discriminate]. injection E as <- <-.
  destruct (IH _ _ _ E2) as (tr & T & M1 & M2). exists (mkD w st0 o r e st1 :: tr). split; [constructor; assumption|]. cbn [map d_o d_r fst snd]. split; congruence.
Qed.
Example opened_socket_is_empty : let st := after (us [OSocket FUdp]) in exists t, slot st FUdp 0 t /\ s_open t = true /\ contents (s_rx t) = [].
Proof.
  cbv zeta. exists (nth 0 (u_udp (after (us [OSocket FUdp]))) sock0). split; [split; [lia|]|split; vm_compute; reflexivity].
  destruct (nth_error (socks (after (us [OSocket FUdp])) FUdp) (Z.to_nat 0)) as [t|] eqn:E.
  - f_equal. symmetry. apply nth_error_nth. exact E.
  - exfalso. apply nth_error_None in E. vm_compute in E. lia.
Qed.

(** *** Nobody listens: port unreachable to the sender; nothing for a multicast *)
Example udp_unreachable_nonvacuous : unicast_to_us W (udp PEER 9 A1 7777 [1]) /\
  match outs (us [OUdp 0 (udp PEER 9 A1 7777 [1]); OUdp 0 (udp PEER 9 GRP 7777 [1])]) with
  | Some [(RVoid, [UUnreach 0 g]); (RVoid, [])] => zget g 34 = 3 /\ zget g 35 = 3 /\ dst g = PEER /\ src g = A1 /\ zlen g = 70
  | _ => False
  end.
Proof.
  split.
  - unfold unicast_to_us. assert (D : dst (udp PEER 9 A1 7777 [1]) = A1) by (vm_compute; reflexivity). assert (S : src (udp PEER 9 A1 7777 [1]) = PEER) by (vm_compute; reflexivity). rewrite D, S.
    assert (MC : forall a, addr32 a -> ip_is_multicast a = false -> ~ multicast a). { intros a R E M. apply (proj2 (multicast_iff a R)) in M. congruence. }
    assert (BC : forall a, addr32 a -> ip_is_broadcast (w_confs W) a = false -> ~ broadcast W a). { intros a R E M. apply (proj2 (broadcast_iff W a)) in M. congruence. }
    assert (RP : addr32 PEER) by (unfold addr32, PEER; lia). assert (RA : addr32 A1) by (unfold addr32, A1; lia).
    split; [unfold A1; lia|]. split; [unfold PEER; lia|]. split; [apply BC; [exact RA|vm_compute; reflexivity]|]. split; [apply BC; [exact RP|vm_compute; reflexivity]|].
    split; [apply MC; [exact RA|vm_compute; reflexivity]|]. split; [apply MC; [exact RP|vm_compute; reflexivity]|]. apply own_if. vm_compute. reflexivity.
  - vm_compute. repeat split.
Qed.

(** *** Multicast: two sockets join, the last to leave is reported; queries are answered *)
Definition hJ : list (world * uop) := us [OSocket FUdp; OSocket FUdp; OOpt (FD 0) (SJoin GRP A1); OOpt (FD 1) (SJoin GRP A1)].
Definition rec_of (e : list uev) : list (Z * Z) := concat (map (fun x => match x with UIgmp _ f => [(zget f 46, rd32 f 50)] | _ => [] end) e).
(** every join of the history happens while all sockets are open *)
Fixpoint joins_ok (st : ust) (h : list (world * uop)) : bool :=
  match h with
  | [] => true
  | (w, o) :: h => (match o with OOpt _ (SJoin _ _) => forallb s_open (u_udp st) | _ => true end) &&
                   (zlen (w_ifs w) =? 2) && match ustep w st o with Some (st, _, _) => joins_ok st h | None => false end
  end.
Lemma joins_live h : hist_ok h -> forall st0 st l, lives 2 st0 -> joins_ok st0 h = true -> urun st0 h = Some (st, l) -> lives 2 st.
Proof.
  induction 1 as [|[w o] h (HW & HO) H IH]; intros st0 st l R J E; cbn [urun joins_ok] in *; [congruence|]. apply andb_true_iff in J as (J & J3). apply andb_true_iff in J as (J & J2). apply Z.eqb_eq in J2.
  destruct (ustep w st0 o) as [[[st1 r] e]|] eqn:E1; cbn [obind] in E; [|discriminate]. destruct (urun st1 h) as [[st2 l2]|] eqn:E2; cbn [obind] in E; [|discriminate]. injection E as <- <-.
  eapply IH; [|exact J3|exact E2]. rewrite <- J2. eapply li_step; [exact R|lia|exact HW|exact HO| |exact E1].
  unfold joins_open. destruct o as [| | | |fd [g a| | | | |]| | | | | | |]; try exact I. intros n t _ (_ & N). rewrite forallb_forall in J. apply J. eapply nth_error_In. exact N.
Qed.
Lemma after_lives h : hist_ok h -> joins_ok ust0 h = true -> lives 2 (after h).
Proof. intros H J. unfold after. destruct (urun ust0 h) as [[st l]|] eqn:E; [|constructor]. eapply joins_live; [exact H|constructor|exact J|exact E]. Qed.
Definition hM : list (world * uop) := hJ ++ us [OOpt (FD 0) (SLeave GRP A1); OIgmp 0 (igmpq 1 0) (fun _ => true); OTimer 0].
Example multicast_nonvacuous : hist_ok hM /\ lives 2 (after hM) /\ multicast GRP /\ member (after hM) 0 GRP /\ ~ member (after hM) 1 GRP /\
  match outs (hM ++ us [OClose (FD 1); OIgmp 0 (igmpq 1 0) (fun _ => true); OTimer 0]) with
  | Some l => map (fun x => (fst x, rec_of (snd x))) l =
      [(RZ 512, []); (RZ 513, []); (RZ 0, [(2, GRP)]); (RZ 0, []); (RZ 0, []); (RVoid, []); (RVoid, [(2, GRP)]); (RZ 0, [(3, GRP)]); (RVoid, []); (RVoid, [])]
  | None => False
  end.
Proof.
  assert (H : hist_ok hM) by hist_ok_tac. assert (L : lives 2 (after hM)) by (apply after_lives; [exact H|vm_compute; reflexivity]).
  split; [exact H|]. split; [exact L|]. assert (M : u_mc (after hM) = mkM GRP 0 1 false :: repeat mship0 7) by (vm_compute; reflexivity).
  split; [unfold multicast; vm_compute; intuition congruence|]. split; [|split].
  - exists (mkM GRP 0 1 false). rewrite M. split; [left; reflexivity|]. vm_compute. intuition congruence.
  - intros (m & I & _ & B & C). rewrite M in I. cbn [repeat In] in I. intuition (subst m; cbn in *; congruence).
  - vm_compute. reflexivity.
Qed.

(** *** Sending: options, queueing, transmission; a group heard back by the sender *)
Definition hS : list (world * uop) := us [OSocket FUdp; OBind (FD 0) A1 7000 true false; OOpt (FD 0) (STos 16); OSend (FD 0) (Some (PEER, 9)) [1; 2; 3] 0; OSend (FD 0) (Some (PEER2, 9)) [4] 0].
Definition tx_of (e : list uev) : list (Z * Z * Z * Z * Z * list Z) := map (fun x => (src (snd x), sport (snd x), dst (snd x), dport (snd x), zget (snd x) 15, payload (snd x))) (transmitted e).
Example udp_send_nonvacuous : hist_ok hS /\ reached (after hS) /\
  match outs (hS ++ us [OFlush road]) with
  | Some l => map (fun x => (fst x, tx_of (snd x))) l =
      [(RZ 512, []); (RZ 0, []); (RZ 0, []); (RZ 3, []); (RZ 1, []); (RVoid, [(A1, 7000, PEER, 9, 16, [1; 2; 3]); (A1, 7000, PEER2, 9, 16, [4])])]
  | None => False
  end.
Proof. assert (H : hist_ok hS) by hist_ok_tac. split; [exact H|]. split; [apply after_reached; exact H|]. vm_compute. reflexivity. Qed.
Example udp_loop_nonvacuous :
  resl (us [OSocket FUdp; OBind (FD 0) A1 7000 true false; OOpt (FD 0) (SJoin GRP A1); OSend (FD 0) (Some (GRP, 7000)) [1; 2; 3] 0; OFlush road; ORecv (FD 0) 10]) =
  Some [RZ 512; RZ 0; RZ 0; RZ 3; RVoid; RData [1; 2; 3] A1 7000].
Proof. vm_compute. reflexivity. Qed.

(** *** ICMP: an echo request is answered, an echo reply reaches the socket that asked *)
Definition hI : list (world * uop) := us [OSocket FIcmp; OBind (FI 0) A1 77 true false; OIcmp 0 (icmp PEER A1 8 5 [1; 2]); OIcmp 0 (icmp PEER A1 0 77 [9]); OIcmp 0 (icmp PEER A1 0 78 [9])].
Example icmp_nonvacuous : hist_ok hI /\ reached (after hI) /\
  match outs (hI ++ us [ORecv (FI 0) 100; ORecv (FI 0) 100]) with
  | Some [(RZ 1024, []); (RZ 0, []); (RVoid, [UEcho 0 g]); (RVoid, []); (RVoid, []); (RData b PEER 0, []); (RZ (-11), [])] =>
      dst g = PEER /\ src g = A1 /\ zget g 34 = 0 /\ part g 38 6 = [0; 5; 0; 1; 1; 2] /\ skipn 4 b = [0; 77; 0; 1; 9]
  | _ => False
  end.
Proof. assert (H : hist_ok hI) by hist_ok_tac. split; [exact H|]. split; [apply after_reached; exact H|]. vm_compute. repeat split. Qed.

(** ** What does not hold *)
(** sendto() on an unbound socket draws a port at random and does not look whether another
    socket has it: two sockets share a port and an address. *)
Theorem random_port_taken_refuted : exists st, reached st /\ ~ exclusive (u_udp st).
Proof.
  set (h := us [OSocket FUdp; OSocket FUdp; OBind (FD 0) A1 7000 true false; OSend (FD 1) (Some (PEER, 9)) [1] 7000]).
  exists (after h). split; [apply after_reached; hist_ok_tac|]. intros X.
  assert (L : length (u_udp (after h)) = 2%nat) by (vm_compute; reflexivity). destruct (u_udp (after h)) as [|t [|u [|? ?]]] eqn:E; try discriminate L.
  assert (E0 : sock_at (u_udp (after h)) 0 = t) by (rewrite E; reflexivity). assert (E1 : sock_at (u_udp (after h)) 1 = u) by (rewrite E; reflexivity).
  apply (X 0%nat 1%nat t u); [reflexivity|reflexivity|lia|]. rewrite <- E0, <- E1. unfold clash. split; [vm_compute; congruence|]. split; [vm_compute; reflexivity|]. right. right. vm_compute. reflexivity.
Qed.
(** bind() to no address notes the primary interface's, so another socket may bind the
    port at the other address; connect() then moves the first socket to that address. *)
Theorem connect_moves_onto_other_refuted : exists st, reached st /\ ~ exclusive (u_udp st).
Proof.
  set (h := us [OSocket FUdp; OSocket FUdp; OBind (FD 0) 0 7000 true false; OBind (FD 1) A2 7000 true false; OConnect (FD 0) (A2 + 8) 9]).
  exists (after h). split; [apply after_reached; hist_ok_tac|]. intros X.
  assert (L : length (u_udp (after h)) = 2%nat) by (vm_compute; reflexivity). destruct (u_udp (after h)) as [|t [|u [|? ?]]] eqn:E; try discriminate L.
  assert (E0 : sock_at (u_udp (after h)) 0 = t) by (rewrite E; reflexivity). assert (E1 : sock_at (u_udp (after h)) 1 = u) by (rewrite E; reflexivity).
  apply (X 0%nat 1%nat t u); [reflexivity|reflexivity|lia|]. rewrite <- E0, <- E1. unfold clash. split; [vm_compute; congruence|]. split; [vm_compute; reflexivity|]. right. right. vm_compute. reflexivity.
Qed.
(** A connected socket that sends to a third party by sendto() is from then on connected to
    that one: datagrams of the peer it was connected to no longer arrive. *)
Theorem sendto_keeps_connection_refuted : exists h, hist_ok h /\
  resl (h ++ us [OUdp 0 (udp PEER 9 A1 7000 [1]); ORecv (FD 0) 10]) = Some [RZ 512; RZ 0; RZ 0; RZ 1; RVoid; RZ (-11)] /\
  h = us [OSocket FUdp; OBind (FD 0) A1 7000 true false; OConnect (FD 0) PEER 9; OSend (FD 0) (Some (PEER2, 9)) [1] 0].
Proof. eexists. split; [|split; [|reflexivity]]; [hist_ok_tac|vm_compute; reflexivity]. Qed.
(** ... even if that sendto() failed because the data was too long. *)
Theorem failed_sendto_keeps_connection_refuted : 
  resl (us [OSocket FUdp; OBind (FD 0) A1 7000 true false; OConnect (FD 0) PEER 9; OSend (FD 0) (Some (PEER2, 9)) (repeat 0 1473) 0; OUdp 0 (udp PEER 9 A1 7000 [1]); ORecv (FD 0) 10]) =
  Some [RZ 512; RZ 0; RZ 0; RZ (-1); RVoid; RZ (-11)].
Proof. vm_compute. reflexivity. Qed.
(** bind() works on a descriptor socket() has not returned (its socket was never opened),
    and the socket opened in that slot later inherits the port. *)
Theorem unopened_descriptor_refused_refuted :
  resl (us [OBind (FD 0) A1 7000 true false; OConnect (FD 0) PEER 9; OSocket FUdp; OUdp 0 (udp PEER 9 A1 7000 [1]); ORecv (FD 0) 10]) =
  Some [RZ 0; RZ 0; RZ 512; RVoid; RData [1] PEER 9].
Proof. vm_compute. reflexivity. Qed.
(** Joining on such a descriptor and closing it leaves the host a member for ever. *)
Theorem closed_slot_membership_leak_refuted : exists st, reached st /\ member st 0 GRP /\ ~ joined_somewhere st 0 GRP /\ forall t, In t (u_udp st) -> s_open t = false.
Proof.
  set (h := us [OOpt (FD 0) (SJoin GRP A1); OClose (FD 0)]). exists (after h). split; [apply after_reached; hist_ok_tac|].
  assert (M : u_mc (after h) = mkM GRP 0 1 false :: repeat mship0 7) by (vm_compute; reflexivity). assert (U : u_udp (after h) = [sock0; sock0]) by (vm_compute; reflexivity). split; [|split].
  - exists (mkM GRP 0 1 false). rewrite M. split; [left; reflexivity|]. vm_compute. intuition congruence.
  - intros (t & I & J). rewrite U in I. unfold joined in J. destruct I as [<-|[<-|[]]]; vm_compute in J; intuition congruence.
  - intros t. rewrite U. intros [<-|[<-|[]]]; reflexivity.
Qed.
(** While DHCP runs, a connected socket without an address takes datagrams from anybody. *)
Theorem connected_filters_during_dhcp_refuted :
  resl [(WD, OSocket FUdp); (WD, OBind (FD 0) 0 7000 true false); (WD, OConnect (FD 0) PEER 9); (WD, OUdp 0 (udp PEER2 10 A1 7000 [1])); (WD, ORecv (FD 0) 10)] =
  Some [RZ 512; RZ 0; RZ 0; RVoid; RData [1] PEER2 10].
Proof. vm_compute. reflexivity. Qed.
(** A connected socket takes multicasts from any source port of its peer. *)
Theorem connected_filters_multicast_port_refuted :
  resl (us [OSocket FUdp; OBind (FD 0) A1 7000 true false; OOpt (FD 0) (SJoin GRP A1); OConnect (FD 0) PEER 9; OUdp 0 (udp PEER 10 GRP 7000 [1]); ORecv (FD 0) 10]) =
  Some [RZ 512; RZ 0; RZ 0; RZ 0; RVoid; RData [1] PEER 10].
Proof. vm_compute. reflexivity. Qed.
(** Only the low byte and the lowest family bit of a descriptor count: numbers socket() never
    returned name sockets too. *)
Theorem descriptors_unique_refuted : exists st fd fd', reached st /\ fd <> fd' /\ designates st fd FUdp 0 /\ designates st fd' FUdp 0.
Proof. exists ust0, 512, 66048. split; [constructor|]. split; [lia|]. split; vm_compute; intuition congruence. Qed.
(** connect() looks at the family bits in another order than the other calls. *)
Theorem descriptor_same_for_all_calls_refuted :
  resl (us [OSocket FUdp; OSocket FTcp; OConnect 768 PEER 9; OSend (FD 0) None [1] 7000]) = Some [RZ 512; RZ 256; RZ 0; RZ 1].
Proof. vm_compute. reflexivity. Qed.
(** recvfrom() with a buffer that is too short drops the datagram. *)
Theorem short_buffer_keeps_datagram_refuted :
  resl (us [OSocket FUdp; OBind (FD 0) A1 7000 true false; OUdp 0 (udp PEER 9 A1 7000 [1; 2; 3]); ORecv (FD 0) 2; ORecv (FD 0) 10]) = Some [RZ 512; RZ 0; RVoid; RZ (-22); RZ (-11)].
Proof. vm_compute. reflexivity. Qed.
(** IP_DROP_MEMBERSHIP names the interface by its address: it fails if that changed since
    the join, and the host stays a member. *)
Definition W2 : world := exW false [exIf 1 PEER2 4294967040; exIf 2 A2 4294967040] [].
Theorem leave_after_renumbering_refuted :
  resl (us [OSocket FUdp; OOpt (FD 0) (SJoin GRP A1)] ++ [(W2, OOpt (FD 0) (SLeave GRP A1))]) = Some [RZ 512; RZ 0; RZ (-22)].
Proof. vm_compute. reflexivity. Qed.
(** A link that just holds the headers refuses an empty datagram. *)
Definition W42 : world := mkW false false exIfs (fun _ => 42) [] (fun _ _ => false) (fun _ _ => false).
Theorem empty_datagram_fits_refuted : resl [(W42, OSocket FUdp); (W42, OSend (FD 0) (Some (PEER, 9)) [] 7000)] = Some [RZ 512; RZ (-1)].
Proof. vm_compute. reflexivity. Qed.
(** A slot nobody opened takes datagrams for port 0, so their sender gets no port unreachable;
    joining a group is reported with record type MODE_IS_EXCLUDE, see [multicast_nonvacuous]. *)
Theorem port_zero_unreachable_refuted : exists l, outs [(WD, OUdp 0 (udp PEER 9 A1 0 [1]))] = Some l /\ l = [(RVoid, [])] /\
  s_rx (sock_at (u_udp (after [(WD, OUdp 0 (udp PEER 9 A1 0 [1]))])) 0) = fifo_init [] 0.
Proof. eexists. split; [vm_compute; reflexivity|]. split; vm_compute; reflexivity. Qed.
