(** Every operation is defined and keeps the socket tables in order. *)
From Verif Require Import Base ListUtil Checksum ChecksumProps Route RouteProps Arp HttpUrl Fifo Forward ForwardSpec ForwardProofs ForwardStep Udp UdpFifo UdpSpec UdpFrames UdpInv UdpOps UdpFlush.

(** ** Descriptors *)
Lemma marked_bit fd n : 0 <= n -> (Z.land fd (2 ^ n) =? 2 ^ n) = Z.testbit fd n.
Proof.
  intros H. destruct (Z.testbit fd n) eqn:E.
  - apply Z.eqb_eq. apply Z.bits_inj'. intros k K. rewrite Z.land_spec, Z.pow2_bits_eqb by lia. destruct (Z.eqb_spec n k); [subst; rewrite E|]; destruct (Z.testbit fd k); reflexivity.
  - apply Z.eqb_neq. intros Q. assert (X : Z.testbit (Z.land fd (2 ^ n)) n = true) by (rewrite Q; apply Z.pow2_bits_true; assumption).
    rewrite Z.land_spec, E in X. discriminate.
Qed.
Lemma unmark_range fd : 0 <= unmark fd < 256.
Proof. unfold unmark. change 255 with (Z.ones 8). rewrite Z.land_ones by lia. apply Z.mod_pos_bound. lia. Qed.
Lemma unmark_mod fd : unmark fd = fd mod 256.
Proof. unfold unmark. change 255 with (Z.ones 8). rewrite Z.land_ones by lia. reflexivity. Qed.
Lemma tcp_bit fd : is_marked fd MARK_TCP = Z.testbit fd 8. Proof. exact (marked_bit fd 8 ltac:(lia)). Qed.
Lemma udp_bit fd : is_marked fd MARK_UDP = Z.testbit fd 9. Proof. exact (marked_bit fd 9 ltac:(lia)). Qed.
Lemma icmp_bit fd : is_marked fd MARK_ICMP = Z.testbit fd 10. Proof. exact (marked_bit fd 10 ltac:(lia)). Qed.
Lemma decode_spec st fd :
  (exists e, decode st fd = inl e /\ e < 0 /\ forall k i, ~ designates st fd k i) \/
  (exists k i, decode st fd = inr (k, i) /\ designates st fd k i /\ 0 <= i < 256).
Proof.
  unfold decode. rewrite tcp_bit, udp_bit, icmp_bit. pose proof (unmark_range fd) as UR. pose proof (unmark_mod fd) as UM.
  destruct (Z.ltb_spec fd 0). { left. exists (-22). split; [reflexivity|]. split; [lia|]. intros k i (D & _). lia. }
  assert (KEY : forall k, (match k with FTcp => Z.testbit fd 8 = true | FUdp => Z.testbit fd 8 = false /\ Z.testbit fd 9 = true
                                      | FIcmp => Z.testbit fd 8 = false /\ Z.testbit fd 9 = false /\ Z.testbit fd 10 = true end) ->
    (exists e, (if zlen (socks st k) <=? unmark fd then inl (-22) else inr (k, unmark fd)) = inl e /\ e < 0 /\ forall k i, ~ designates st fd k i) \/
    (exists k' i, (if zlen (socks st k) <=? unmark fd then inl (-22) else inr (k, unmark fd)) = @inr Z _ (k', i) /\ designates st fd k' i /\ 0 <= i < 256)).
  { intros k HK. destruct (Z.leb_spec (zlen (socks st k)) (unmark fd)).
    - left. exists (-22). split; [reflexivity|]. split; [lia|]. intros k2 i (D1 & D2 & D3 & D4).
      assert (k2 = k) by (destruct k, k2; try reflexivity; exfalso; intuition congruence). subst k2. lia.
    - right. exists k, (unmark fd). split; [reflexivity|]. split; [|assumption]. split; [assumption|]. split; [assumption|]. split; [assumption|exact HK]. }
  destruct (Z.testbit fd 8) eqn:B8; [apply (KEY FTcp); reflexivity|]. destruct (Z.testbit fd 9) eqn:B9; [apply (KEY FUdp); auto|].
  destruct (Z.testbit fd 10) eqn:B10; [apply (KEY FIcmp); auto|]. left. exists (-1). split; [reflexivity|]. split; [lia|].
  intros k i (_ & _ & _ & D). destruct k; intuition congruence.
Qed.

(** ** One slot changes *)
Lemma Good_udp st i t : Good st -> SI rx_udp t -> Good (with_udp st (upd (u_udp st) i t)).
Proof. exact (Good_put true st i t). Qed.
Lemma Good_icmp st i t : Good st -> SI rx_icmp t -> Good (with_icmp st (upd (u_icmp st) i t)).
Proof. exact (Good_put false st i t). Qed.
Lemma Good_tcp st i t : Good st -> Good (with_tcp st (upd (u_tcp st) i t)).
Proof. intros (G1 & G2). split; [cbn [u_tcp with_tcp]; rewrite upd_len; assumption|exact G2]. Qed.
Lemma Good_id st v : Good st -> Good (with_id st v).
Proof. intros H. exact H. Qed.
Lemma Good_mc st l : Good st -> zlen l = 8 -> Forall (fun m => addr32 (m_group m)) l -> Good (with_mc st l).
Proof. intros (G1 & G2 & G3 & G4 & G5 & _) L F. repeat (split; [assumption|]). assumption. Qed.
Lemma SI0 rx : SI rx sock0.
Proof.
  assert (A0 : addr32 0) by (unfold addr32; lia). assert (P0 : port_ok 0) by (unfold port_ok; lia). assert (B0 : byte 0) by (unfold byte; lia).
  split; [split; reflexivity|]. split; [constructor|]. split; [split; reflexivity|]. split; [constructor|]. split.
  - split; [reflexivity|]. cbn [sock0 s_mc repeat]. repeat (constructor; [split; [assumption|cbn [snd]; lia]|]). constructor.
  - repeat (split; [assumption|]). cbn [sock0 s_mif]. lia.
Qed.
Lemma contents_fresh n size : size mod 4 = 0 -> DESC <= size <= 2^31 -> Z.of_nat n = size -> contents (fifo_init (repeat 0 n) size) = [].
Proof. intros. eapply fq_contents. apply fq_fresh; eassumption. Qed.
Lemma fresh_fq size : size mod 4 = 0 -> DESC <= size <= 2^31 -> fq true size (fresh size) [].
Proof. intros. unfold fresh. apply fq_fresh; [assumption|assumption|unfold DESC in *; lia]. Qed.
Lemma SI_open rx k t : SI rx t -> SI rx (open_sock k t).
Proof.
  intros (_ & _ & _ & _ & M & R). destruct (fq_con _ _ _ _ (fresh_fq RXBUF eq_refl ltac:(unfold DESC, RXBUF; lia))) as (QR & CR).
  destruct (fq_con _ _ _ _ (fresh_fq TXBUF eq_refl ltac:(unfold DESC, TXBUF; lia))) as (QT & CT).
  destruct R as (R1 & R2 & R3 & R4 & R5 & R6 & R7 & R8). unfold SI, open_sock. cbn [s_open s_rx s_tx s_mc].
  split; [exact QR|]. split; [rewrite CR; constructor|]. split; [exact QT|]. split; [rewrite CT; constructor|]. split; [exact M|].
  unfold ranges. cbn [s_local s_remote s_bound s_src s_dst s_mttl s_tos s_mif]. repeat (split; [assumption|]). split; [destruct k; [assumption|unfold byte; lia|assumption]|]. split; assumption.
Qed.
Lemma socks_put st k i t : Good st -> (match k with FTcp => True | FUdp => SI rx_udp t | FIcmp => SI rx_icmp t end) -> Good (set_socks st k (upd (socks st k) i t)).
Proof. intros G S. destruct k; [apply Good_tcp|apply Good_udp|apply Good_icmp]; assumption. Qed.
Definition slot_ok (k : fam) (t : sock) : Prop := match k with FTcp => True | FUdp => SI rx_udp t | FIcmp => SI rx_icmp t end.
Lemma slot_at st k i : Good st -> 0 <= i < zlen (socks st k) -> slot_ok k (sock_at (socks st k) i).
Proof. intros (G1 & G2 & G3 & G4 & G5 & _) Hi. destruct k; cbn [slot_ok socks] in *; [exact I|apply at_Forall; assumption|apply at_Forall; assumption]. Qed.
(** a slot's addresses change *)
Lemma SI_addr rx t t' : SI rx t -> s_open t' = s_open t -> s_rx t' = s_rx t -> s_tx t' = s_tx t -> s_mc t' = s_mc t -> ranges t' -> SI rx t'.
Proof. intros (Q1 & F1 & Q2 & F2 & M & R) O R1 T1 MC RR. unfold SI. rewrite O, R1, T1, MC. repeat (split; [assumption|]). assumption. Qed.
Lemma slot_addr k t t' : slot_ok k t -> s_open t' = s_open t -> s_rx t' = s_rx t -> s_tx t' = s_tx t -> s_mc t' = s_mc t -> (ranges t -> ranges t') -> slot_ok k t'.
Proof. intros S O R1 T1 MC RR. destruct k; cbn [slot_ok] in *; [exact I| |]; (eapply SI_addr; [exact S|assumption|assumption|assumption|assumption|apply RR, S]). Qed.

(** ** socket() *)
Lemma free_slot_spec : forall l k, match free_slot l k with
  | Some i => k <= i < k + zlen l /\ (exists t, nth_error l (Z.to_nat (i - k)) = Some t /\ s_open t = false) /\ (forall j t, k <= j < i -> nth_error l (Z.to_nat (j - k)) = Some t -> s_open t = true)
  | None => forall t, In t l -> s_open t = true end.
Proof.
  induction l as [|t l IH]; intros k; cbn [free_slot]; [intros ? []|]. rewrite zlen_cons. pose proof (zlen_nonneg l). destruct (s_open t) eqn:O.
  - specialize (IH (k + 1)). destruct (free_slot l (k + 1)) as [i|].
    + destruct IH as (R & (u & N & U) & F). split; [lia|]. split.
      * exists u. replace (Z.to_nat (i - k)) with (S (Z.to_nat (i - (k + 1)))) by lia. auto.
      * intros j v J Nj. destruct (Z.eq_dec j k) as [-> |]; [rewrite Z.sub_diag in Nj; injection Nj as <-; assumption|].
        replace (Z.to_nat (j - k)) with (S (Z.to_nat (j - (k + 1)))) in Nj by lia. apply (F j v); [lia|assumption].
    + intros v [<- | Hv]; auto.
  - split; [lia|]. split; [exists t; rewrite Z.sub_diag; auto|]. intros j v J. lia.
Qed.
Lemma socket_good st k : Good st -> Good (fst (socket st k)).
Proof.
  intros G. unfold socket. pose proof (free_slot_spec (socks st k) 0) as F. destruct (free_slot (socks st k) 0) as [i|]; [|exact G]. cbn [fst].
  destruct F as (R & _). apply socks_put; [assumption|]. pose proof (slot_at st k i G ltac:(lia)) as S. destruct k; cbn [slot_ok] in S; [exact I|apply SI_open; assumption|apply SI_open; assumption].
Qed.

(** ** bind(), connect() *)
Lemma bind_sock_spec w k l i t ip port fo ve : uworld_ok w -> addr32 ip -> port_ok port -> slot_ok k t ->
  let '(t', r) := bind_sock w k l i t ip port fo ve in
  slot_ok k t' /\ s_open t' = s_open t /\ s_mc t' = s_mc t.
Proof.
  intros HW HA HP HS. unfold bind_sock. destruct (if_for_local_ip w ip) as [ifx ok].
  destruct (match k with FTcp => _ | _ => _ end); [auto|]. destruct fo; cbn [negb]; [|auto]. cbv zeta.
  match goal with |- context [bind_port_in_use l i ?e port] => set (loc := e) end. destruct (bind_port_in_use l i loc port).
  { split; [|split; reflexivity]. eapply slot_addr; [exact HS|reflexivity|reflexivity|reflexivity|reflexivity|intros X; exact X]. }
  destruct ve. { split; [|split; reflexivity]. eapply slot_addr; [exact HS|reflexivity|reflexivity|reflexivity|reflexivity|intros X; exact X]. }
  split; [|split; reflexivity]. eapply slot_addr; [exact HS|reflexivity|reflexivity|reflexivity|reflexivity|].
  intros (R1 & R2 & R3 & R4 & R5 & R6 & R7 & R8). unfold ranges. cbn [set_bound set_src set_local set_if s_local s_remote s_bound s_src s_dst s_mttl s_tos s_mif].
  assert (AL : addr32 loc). { unfold loc. destruct (negb (ip =? 0)); [assumption|]. pose proof (pick_addr w ifx HW). destruct k; try assumption. destruct (pick_local w ifx =? 0); assumption. }
  repeat (split; [assumption|]). assumption.
Qed.
Lemma bind_good w st fd ip port fo ve : uworld_ok w -> addr32 ip -> port_ok port -> Good st -> Good (fst (bind w st fd ip port fo ve)).
Proof.
  intros HW HA HP G. unfold bind. destruct (fd <? 0); [exact G|]. destruct (_ && _); [exact G|].
  destruct (decode_spec st fd) as [(e & -> & _)|(k & i & -> & D & R)]; [exact G|]. destruct D as (_ & _ & D & _).
  pose proof (bind_sock_spec w k (socks st k) i (sock_at (socks st k) i) ip port fo ve HW HA HP (slot_at st k i G ltac:(lia))) as B.
  destruct (bind_sock _ _ _ _ _ _ _ _ _) as [t r]. cbn [fst]. apply socks_put; [assumption|]. destruct B as (B & _). destruct k; exact B.
Qed.
Lemma connect_udp_spec w t ip port : uworld_ok w -> addr32 ip -> port_ok port -> SI rx_udp t -> let '(t', r) := connect_udp w t ip port in SI rx_udp t' /\ s_open t' = s_open t /\ s_mc t' = s_mc t.
Proof.
  intros HW HA HP S. pose proof S as (_ & _ & _ & _ & _ & (R1 & R2 & R3 & R4 & R5 & R6 & R7 & R8)). pose proof (pick_addr w (route_for_ip w ip) HW) as PA.
  unfold connect_udp. destruct (negb (s_bound t =? 0)).
  - destruct (if_for_local_ip w (s_bound t)) as [ifx ok]. destruct ok; cbn [negb]; [|auto]. split; [|split; reflexivity].
    eapply SI_addr; [exact S|reflexivity|reflexivity|reflexivity|reflexivity|]. unfold ranges. cbn [set_conn set_peer set_local set_if s_local s_remote s_bound s_src s_dst s_mttl s_tos s_mif].
    repeat (split; [assumption|]). assumption.
  - split; [|split; reflexivity]. eapply SI_addr; [exact S|reflexivity|reflexivity|reflexivity|reflexivity|]. unfold ranges. cbn [set_conn set_peer set_local set_if s_local s_remote s_bound s_src s_dst s_mttl s_tos s_mif].
    repeat (split; [assumption|]). assumption.
Qed.
Lemma connect_icmp_spec w t ip : uworld_ok w -> addr32 ip -> SI rx_icmp t -> let '(t', r) := connect_icmp w t ip in SI rx_icmp t' /\ s_open t' = s_open t /\ s_mc t' = s_mc t.
Proof.
  intros HW HA S. pose proof S as (_ & _ & _ & _ & _ & (R1 & R2 & R3 & R4 & R5 & R6 & R7 & R8)). pose proof (pick_addr w (route_for_ip w ip) HW) as PA.
  assert (X : forall t', s_open t' = s_open t -> s_rx t' = s_rx t -> s_tx t' = s_tx t -> s_mc t' = s_mc t -> ranges t' -> SI rx_icmp t' /\ s_open t' = s_open t /\ s_mc t' = s_mc t).
  { intros. split; [eapply SI_addr; eassumption|split; assumption]. }
  unfold connect_icmp. cbn [s_bound set_peer]. destruct (negb (s_bound t =? 0)).
  - destruct (if_for_local_ip w (s_bound t)) as [ifx ok]. destruct ok; cbn [negb]; apply X; try reflexivity; unfold ranges; cbn [set_conn set_peer set_local set_if s_local s_remote s_bound s_src s_dst s_mttl s_tos s_mif]; repeat (split; [assumption|]); assumption.
  - cbv zeta. cbn [s_local set_if set_peer]. destruct (s_local t =? 0); apply X; try reflexivity; unfold ranges; cbn [set_conn set_peer set_local set_if s_local s_remote s_bound s_src s_dst s_mttl s_tos s_mif]; repeat (split; [assumption|]); assumption.
Qed.
Lemma connect_good w st fd ip port : uworld_ok w -> addr32 ip -> port_ok port -> Good st -> Good (fst (connect w st fd ip port)).
Proof.
  intros HW HA HP G. unfold connect. destruct (fd <? 0); [exact G|]. pose proof (unmark_range fd) as UR. destruct (is_marked fd MARK_UDP).
  - destruct (Z.leb_spec (zlen (u_udp st)) (unmark fd)); [exact G|]. pose proof (connect_udp_spec w (sock_at (u_udp st) (unmark fd)) ip port HW HA HP (slot_at st FUdp (unmark fd) G ltac:(cbn [socks]; lia))) as C.
    destruct (connect_udp _ _ _ _) as [t r]. apply Good_udp; [assumption|apply C].
  - destruct (is_marked fd MARK_ICMP).
    + destruct (Z.leb_spec (zlen (u_icmp st)) (unmark fd)); [exact G|]. pose proof (connect_icmp_spec w (sock_at (u_icmp st) (unmark fd)) ip HW HA (slot_at st FIcmp (unmark fd) G ltac:(cbn [socks]; lia))) as C.
      destruct (connect_icmp _ _ _) as [t r]. apply Good_icmp; [assumption|apply C].
    + destruct (is_marked fd MARK_TCP); [destruct (zlen (u_tcp st) <=? unmark fd)|]; exact G.
Qed.
