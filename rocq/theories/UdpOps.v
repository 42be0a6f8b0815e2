(** The effect of each operation on the datagram sockets. *)
From Verif Require Import Base ListUtil Checksum ChecksumProps Route RouteProps Arp HttpUrl Fifo Forward ForwardSpec ForwardProofs ForwardStep Udp UdpFifo UdpSpec UdpFrames UdpInv.

Lemma F2_refl {A} (R : A -> A -> Prop) l : (forall x, In x l -> R x x) -> Forall2 R l l.
Proof. induction l as [|x l IH]; intros H; constructor; [apply H; left; reflexivity|]. apply IH. intros; apply H; right; assumption. Qed.
Lemma F2_imp {A B} (R S : A -> B -> Prop) l l' : Forall2 R l l' -> (forall x y, In x l -> R x y -> S x y) -> Forall2 S l l'.
Proof. induction 1 as [|x y l l' H F IH]; intros HI; constructor; [apply HI; [left; reflexivity|assumption]|]. apply IH. intros; apply HI; [right; assumption|assumption]. Qed.

(** ** ICMP *)
Lemma icmp_deliver_spec f : rx_icmp f -> forall l, Forall (SI rx_icmp) l -> exists l', icmp_deliver f l = Some l' /\ Forall (SI rx_icmp) l' /\
  Forall2 (fun t t' => (icmp_wants f t /\ handed t f t') \/ (~ icmp_wants f t /\ t' = t)) l l'.
Proof.
  intros RF. pose proof RF as ((HB & LF) & R1 & R2 & R3).
  induction l as [|t l IH]; intros H; [exists []; split; [reflexivity|]; split; constructor|].
  inversion H as [|? ? Ht Hl]. subst. destruct (IH Hl) as (l' & E & G & F). cbn [icmp_deliver].
  assert (MI : icmp_match f t = true <-> icmp_wants f t).
  { unfold icmp_match, icmp_wants. rewrite !rd32_addr. fold (dst f) (src f). change (rd16 f 38) with (word f 38). change (rd16 f 16) with (total f).
    replace (zlen f <? total f + 14) with false by lia. cbn [negb]. repeat (rewrite ?andb_true_iff, ?orb_true_iff, ?Z.eqb_eq). tauto. }
  destruct (icmp_match f t).
  - destruct (push_rx_spec _ t f Ht RF LF) as (t' & E' & S' & H' & _). rewrite E'. cbn [obind]. rewrite E. cbn [obind].
    exists (t' :: l'). split; [reflexivity|]. split; [constructor; assumption|]. constructor; [left; split; [apply MI; reflexivity|assumption]|assumption].
  - cbn [obind]. rewrite E. cbn [obind]. exists (t :: l'). split; [reflexivity|]. split; [constructor; assumption|].
    constructor; [right; split; [intros X; apply MI in X; discriminate|reflexivity]|assumption].
Qed.
Lemma unicast_iff w f : Forall byte f -> (ip_is_broadcast (w_confs w) (dst f) || ip_is_multicast (dst f) || negb (snd (if_for_local_ip w (dst f))) = false) <-> for_our_unicast w f.
Proof.
  intros HB. unfold for_our_unicast. rewrite <- own_if, <- broadcast_iff, <- multicast_iff by (apply addr_range; assumption).
  destruct (ip_is_broadcast (w_confs w) (dst f)), (ip_is_multicast (dst f)), (snd (if_for_local_ip w (dst f))); cbn; intuition discriminate.
Qed.
Lemma icmp_input_spec w st i f : uworld_ok w -> Good st -> 0 <= i < zlen (w_ifs w) -> frame_ok f -> (42 <= zlen f -> zget f 14 = 69) ->
  exists st' evs, icmp_input w st i f = Some (st', evs) /\ Good st' /\ u_tcp st' = u_tcp st /\ u_udp st' = u_udp st /\ u_mc st' = u_mc st /\
    Forall2 (fun t t' => (valid_icmp f /\ w_frecv w i f = false /\ icmp_for_sockets w f /\ icmp_wants f t /\ handed t f t') \/
                         (~ (valid_icmp f /\ w_frecv w i f = false /\ icmp_for_sockets w f /\ icmp_wants f t) /\ t' = t)) (u_icmp st) (u_icmp st') /\
    (evs = [] \/ (evs = [UTcpErr f] /\ valid_icmp f /\ w_frecv w i f = false /\ zget f 34 <> 0 /\ ~ answers_echo w f) \/
     exists g, evs = [UEcho i g] /\ echo_answer w i f g /\ valid_icmp f /\ w_frecv w i f = false /\ answers_echo w f /\ for_our_unicast w f) /\
    (valid_icmp f -> w_frecv w i f = false -> answers_echo w f -> for_our_unicast w f -> (forall g, w_fsend w i g = false) -> zlen f <= w_mtu w i -> evs <> []).
Proof.
  intros HW HG Hi HF H69. pose proof HF as [HB HL]. pose proof HG as (G1 & G2 & G3 & G4 & G5 & G6 & G7). unfold icmp_input. cbv zeta.
  change (rd16 f 16) with (total f).
  assert (DROP : (~ (valid_icmp f /\ w_frecv w i f = false)) -> exists st' evs, Some (st, @nil uev) = Some (st', evs) /\ Good st' /\ u_tcp st' = u_tcp st /\ u_udp st' = u_udp st /\ u_mc st' = u_mc st /\
    Forall2 (fun t t' => (valid_icmp f /\ w_frecv w i f = false /\ icmp_for_sockets w f /\ icmp_wants f t /\ handed t f t') \/
                         (~ (valid_icmp f /\ w_frecv w i f = false /\ icmp_for_sockets w f /\ icmp_wants f t) /\ t' = t)) (u_icmp st) (u_icmp st') /\
    (evs = [] \/ (evs = [UTcpErr f] /\ valid_icmp f /\ w_frecv w i f = false /\ zget f 34 <> 0 /\ ~ answers_echo w f) \/
     exists g, evs = [UEcho i g] /\ echo_answer w i f g /\ valid_icmp f /\ w_frecv w i f = false /\ answers_echo w f /\ for_our_unicast w f) /\
    (valid_icmp f -> w_frecv w i f = false -> answers_echo w f -> for_our_unicast w f -> (forall g, w_fsend w i g = false) -> zlen f <= w_mtu w i -> evs <> [])).
  { intros NV. exists st, []. split; [reflexivity|]. split; [assumption|]. split; [reflexivity|]. split; [reflexivity|]. split; [reflexivity|].
    split; [apply F2_refl; intros t _; right; split; [tauto|reflexivity]|]. split; [left; reflexivity|]. intros V F. exfalso. tauto. }
  destruct (Z.ltb_spec (zlen f) 42); [apply DROP; unfold valid_icmp; lia|].
  destruct (Z.ltb_spec (total f) 28); [apply DROP; unfold valid_icmp; lia|].
  destruct (Z.ltb_spec (zlen f) (14 + total f)); [apply DROP; unfold valid_icmp; lia|].
  rewrite mread_part by lia. cbn [obind].
  destruct (checksum_accepts_iff_valid (part f 34 (total f - 20))) as (c & Ec & _ & Vc); [apply part_bytes; assumption|rewrite zlen_part; lia|].
  rewrite Ec. cbn [obind]. destruct (Z.eqb_spec c 0) as [C0|NC]; cbn [negb].
  2:{ apply DROP. unfold valid_icmp. intros ((_ & _ & _ & V) & _). apply Vc in V. contradiction. }
  assert (V : valid_icmp f) by (split; [lia|]; split; [lia|]; split; [lia|]; apply Vc; assumption). clear C0 Ec Vc.
  destruct (w_frecv w i f) eqn:F; [apply DROP; intros [_ X]; discriminate|]. clear DROP.
  rewrite !rd32_addr. fold (dst f). pose proof (unicast_iff w f HB) as UI. set (drop := ip_is_broadcast (w_confs w) (dst f) || ip_is_multicast (dst f) || negb (snd (if_for_local_ip w (dst f)))) in *.
  assert (RF : rx_icmp f) by (split; [assumption|]; split; [lia|]; split; lia).
  destruct (icmp_deliver_spec f RF _ G5) as (l & El & Gl & Fl).
  assert (GD : Good (with_icmp st l)).
  { split; [assumption|]. split; [assumption|]. split; [assumption|]. split; [cbn [u_icmp with_icmp]; rewrite (F2_length _ _ _ Fl); assumption|]. split; [assumption|]. split; assumption. }
  destruct (Z.eqb_spec (zget f 34) 0) as [T0|NT].
  - destruct drop eqn:ED.
    + exists st, []. split; [reflexivity|]. split; [assumption|]. split; [reflexivity|]. split; [reflexivity|]. split; [reflexivity|].
      assert (ND : ~ for_our_unicast w f) by (intros X; apply UI in X; discriminate).
      split; [apply F2_refl; intros t _; right; split; [|reflexivity]; intros (_ & _ & [[_ X]|[X _]] & _); tauto|]. split; [left; reflexivity|]. intros _ _ [X _]. lia.
    + assert (UU : for_our_unicast w f) by (apply UI; reflexivity). rewrite El. cbn [obind]. exists (with_icmp st l), []. split; [reflexivity|]. split; [assumption|].
      split; [reflexivity|]. split; [reflexivity|]. split; [reflexivity|]. split.
      * eapply F2_imp; [exact Fl|]. intros t t' _ [[A1 A2]|[A1 A2]]; [left|right]; [|tauto]. split; [assumption|]. split; [reflexivity|]. split; [left; auto|auto].
      * split; [left; reflexivity|]. intros _ _ [X _]. lia.
  - destruct (negb (w_dhcp w) && (zget f 34 =? 8)) eqn:ED8.
    + assert (AE : answers_echo w f) by (split; [lia|destruct (w_dhcp w); [discriminate|reflexivity]]).
      assert (NS : forall t, ~ (valid_icmp f /\ false = false /\ icmp_for_sockets w f /\ icmp_wants f t)) by (intros t (_ & _ & [[X _]|[_ X]] & _); tauto).
      assert (FN : Forall2 (fun t t' => (valid_icmp f /\ false = false /\ icmp_for_sockets w f /\ icmp_wants f t /\ handed t f t') \/
                         (~ (valid_icmp f /\ false = false /\ icmp_for_sockets w f /\ icmp_wants f t) /\ t' = t)) (u_icmp st) (u_icmp st)) by (apply F2_refl; intros t _; right; split; [apply NS|reflexivity]).
      destruct drop eqn:ED.
      { exists st, []. split; [reflexivity|]. split; [assumption|]. split; [reflexivity|]. split; [reflexivity|]. split; [reflexivity|]. split; [exact FN|]. split; [left; reflexivity|].
        intros _ _ _ X. apply UI in X. discriminate. }
      assert (UU : for_our_unicast w f) by (apply UI; reflexivity).
      destruct (nth_error (w_ifs w) (Z.to_nat i)) as [x|] eqn:NX; [|apply nth_error_None in NX; unfold zlen in *; lia].
      destruct (echo_spec w i f x (u_id st) HW Hi HF ltac:(lia) ltac:(apply H69; lia) ltac:(lia) ltac:(lia) NX) as (g & Eg & Ag & Lg). rewrite Eg. cbn [obind].
      destruct (w_fsend w i g) eqn:QF; [|destruct (Z.ltb_spec (w_mtu w i) (zlen g))];
        (eexists _, _; split; [reflexivity|]; split; [exact HG|]; split; [reflexivity|]; split; [reflexivity|]; split; [reflexivity|]; split; [exact FN|]).
      * split; [left; reflexivity|]. intros _ _ _ _ X. rewrite X in QF. discriminate.
      * split; [left; reflexivity|]. intros. lia.
      * split; [right; right; exists g; split; [reflexivity|]; split; [assumption|]; split; [assumption|]; split; [reflexivity|]; split; assumption|]. discriminate.
    + assert (NA : ~ answers_echo w f) by (intros [X Y]; rewrite X, Y in ED8; discriminate).
      rewrite El. cbn [obind]. exists (with_icmp st l), [UTcpErr f]. split; [reflexivity|]. split; [assumption|].
      split; [reflexivity|]. split; [reflexivity|]. split; [reflexivity|]. split.
      * eapply F2_imp; [exact Fl|]. intros t t' _ [[A1 A2]|[A1 A2]]; [left|right]; [|tauto]. split; [assumption|]. split; [reflexivity|]. split; [right; auto|auto].
      * split; [right; left; auto|]. discriminate.
Qed.

(** ** recvfrom *)
(** everything but the receive queue and the peer address *)
Definition kept (t t' : sock) : Prop := same_attr (set_peer (s_remote t') (s_dst t) t) t' /\ (s_remote t' = s_remote t \/ s_remote t = 0) /\ s_if t' = s_if t.
Lemma SI_rx rx t q c : SI rx t -> fq (s_open t) RXBUF q c -> Forall rx c -> SI rx (set_rx q (s_ttl t) t).
Proof. intros (Q1 & F1 & Q2 & F2 & M & R) Q C. destruct (fq_con _ _ _ _ Q) as [Q' E]. split; [exact Q'|]. split; [cbn [s_rx set_rx]; rewrite E; exact C|]. split; [exact Q2|]. split; [exact F2|]. split; [exact M|exact R]. Qed.
Lemma SI_peer rx t r d : SI rx t -> addr32 r -> port_ok d -> SI rx (set_peer r d t).
Proof.
  intros (Q1 & F1 & Q2 & F2 & M & R) Hr Hd. split; [exact Q1|]. split; [exact F1|]. split; [exact Q2|]. split; [exact F2|]. split; [exact M|].
  destruct R as (R1 & R2 & R3 & R4 & R5 & R6 & R7 & R8). repeat (split; [assumption|]). assumption.
Qed.
Lemma kept_rx t q ttl : kept t (set_rx q ttl t).
Proof. split; [|split; [left; reflexivity|reflexivity]]. unfold same_attr. repeat (split; [reflexivity|]). reflexivity. Qed.
Lemma kept_peer_rx t r q ttl : s_remote t = 0 -> kept t (set_rx q ttl (set_peer r (s_dst t) t)).
Proof. intros H. split; [|split; [right; assumption|reflexivity]]. unfold same_attr. repeat (split; [reflexivity|]). reflexivity. Qed.

Lemma recv_udp_spec t blen : SI rx_udp t -> exists t' r, recv_udp t blen = Some (t', r) /\ SI rx_udp t' /\ kept t t' /\
  match contents (s_rx t) with
  | [] => r = RZ (-11) /\ contents (s_rx t') = []
  | f :: q => contents (s_rx t') = q /\ (zlen (payload f) <= blen -> r = RData (payload f) (src f) (sport f)) /\ (blen < zlen (payload f) -> r = RZ (-22))
  end.
Proof.
  intros HS. pose proof HS as (Q1 & F1 & Q2 & F2 & M & R). unfold recv_udp.
  destruct (fq_len _ _ _ _ Q1) as (q1 & n & E1 & QL & N0). rewrite E1.
  destruct (Z.eqb_spec n 0) as [Nz|Nz].
  { destruct (contents (s_rx t)) as [|f c] eqn:EC; [|apply N0 in Nz; discriminate].
    eexists _, _. split; [reflexivity|]. split; [eapply SI_rx; [exact HS|exact QL|constructor]|]. split; [apply kept_rx|]. split; [reflexivity|]. apply (fq_contents _ _ _ _ QL). }
  destruct (fq_peek _ _ _ _ QL) as (q2 & p & E2 & Q3 & C). rewrite E2.
  destruct C as [[C ->]|(pos & f & c & fl & tm & C & -> & _ & _ & LD & _ & MR & (q4 & P4 & Q4) & _)].
  { exfalso. apply Nz, N0. exact C. }
  rewrite C in *. inversion F1 as [|? ? Rf Fc]. subst. pose proof Rf as ((HB & LF) & L1 & L2 & L3).
  rewrite LD. cbn [obind d_pos].
  assert (MP : forall o n, 0 <= o -> 0 <= n -> o + n <= zlen f -> mread (f_data q2) (pos + DESC + o) n = Some (part f o n)).
  { intros o k H0 H1 H2. unfold mread in MR. destruct ((0 <=? pos + DESC) && (0 <=? zlen f) && (pos + DESC + zlen f <=? zlen (f_data q2))) eqn:B; [|discriminate].
    apply some_inj in MR. rewrite mread_part by lia. f_equal. rewrite <- MR. fold (part (f_data q2) (pos + DESC) (zlen f)). apply zget_ext.
    - rewrite !zlen_part; try lia. rewrite zlen_part by lia. lia.
    - intros j J. rewrite zlen_part in J by lia. rewrite !zget_part by lia. f_equal. lia. }
  pose proof (MP 0 42 ltac:(lia) ltac:(lia) ltac:(lia)) as M42. rewrite Z.add_0_r in M42. rewrite M42. cbn [obind].
  set (h := part f 0 42). assert (HZ : forall k, 0 <= k < 42 -> zget h k = zget f k) by (intros; unfold h; rewrite zget_part by lia; reflexivity).
  assert (W : forall o, 0 <= o <= 40 -> rd16 h o = word f o) by (intros; rewrite rd16_word; apply word_ext; intros; apply HZ; lia).
  assert (A : rd32 h 26 = src f) by (rewrite rd32_addr; apply addr_ext; intros; apply HZ; lia).
  rewrite !W by lia. fold (ulen f) (sport f). rewrite A. destruct (Z.ltb_spec (ulen f) 8) as [|_]; [lia|].
  assert (LPf : zlen (payload f) = ulen f - 8) by (unfold payload; apply zlen_part; lia). rewrite LPf.
  set (t1 := if (s_remote t =? 0) && negb (src f =? s_local t) then set_peer (src f) (s_dst t) t else t).
  assert (S1 : SI rx_udp t1).
  { unfold t1. destruct ((s_remote t =? 0) && negb (src f =? s_local t)); [|assumption]. apply SI_peer; [assumption|apply addr_range; assumption|apply R]. }
  assert (O1 : s_open t1 = s_open t /\ s_ttl t1 = s_ttl t) by (unfold t1; destruct ((s_remote t =? 0) && negb (src f =? s_local t)); split; reflexivity). destruct O1 as [O1 T1].
  assert (K1 : kept t (set_rx q4 (s_ttl t1) t1)).
  { unfold t1. destruct ((s_remote t =? 0) && negb (src f =? s_local t)) eqn:QQ; [apply kept_peer_rx; lia|apply kept_rx]. }
  assert (X : SI rx_udp (set_rx q4 (s_ttl t1) t1)) by (eapply SI_rx; [exact S1|rewrite O1; exact Q4|assumption]).
  destruct (Z.ltb_spec blen (ulen f - 8)).
  - rewrite P4. cbn [obind]. eexists _, _. split; [reflexivity|]. split; [exact X|]. split; [exact K1|]. split; [apply (fq_contents _ _ _ _ Q4)|]. split; [lia|reflexivity].
  - rewrite MP by lia. cbn [obind]. rewrite P4. cbn [obind]. eexists _, _. split; [reflexivity|]. split; [exact X|]. split; [exact K1|]. split; [apply (fq_contents _ _ _ _ Q4)|]. split; [reflexivity|lia].
Qed.
Lemma recv_icmp_spec t blen : SI rx_icmp t -> exists t' r, recv_icmp t blen = Some (t', r) /\ SI rx_icmp t' /\ kept t t' /\
  match contents (s_rx t) with
  | [] => r = RZ (-11) /\ contents (s_rx t') = []
  | f :: q => contents (s_rx t') = q /\ (zlen (message f) <= blen -> r = RData (message f) (src f) 0) /\ (blen < zlen (message f) -> r = RZ (-1))
  end.
Proof.
  intros HS. pose proof HS as (Q1 & F1 & Q2 & F2 & M & R). unfold recv_icmp.
  destruct (fq_peek _ _ _ _ Q1) as (q2 & p & E2 & Q3 & C). rewrite E2.
  destruct C as [[C ->]|(pos & f & c & fl & tm & C & -> & _ & _ & LD & _ & MR & (q4 & P4 & Q4) & _)].
  { rewrite C in *. eexists _, _. split; [reflexivity|]. split; [eapply SI_rx; [exact HS|exact Q3|constructor]|]. split; [apply kept_rx|]. split; [reflexivity|]. apply (fq_contents _ _ _ _ Q3). }
  rewrite C in *. inversion F1 as [|? ? Rf Fc]. subst. pose proof Rf as ((HB & LF) & L1 & L2 & L3).
  rewrite LD. cbn [obind d_pos].
  assert (MP : forall o n, 0 <= o -> 0 <= n -> o + n <= zlen f -> mread (f_data q2) (pos + DESC + o) n = Some (part f o n)).
  { intros o k H0 H1 H2. unfold mread in MR. destruct ((0 <=? pos + DESC) && (0 <=? zlen f) && (pos + DESC + zlen f <=? zlen (f_data q2))) eqn:B; [|discriminate].
    apply some_inj in MR. rewrite mread_part by lia. f_equal. rewrite <- MR. fold (part (f_data q2) (pos + DESC) (zlen f)). apply zget_ext.
    - rewrite !zlen_part; try lia. rewrite zlen_part by lia. lia.
    - intros j J. rewrite zlen_part in J by lia. rewrite !zget_part by lia. f_equal. lia. }
  pose proof (MP 0 42 ltac:(lia) ltac:(lia) ltac:(lia)) as M42. rewrite Z.add_0_r in M42. rewrite M42. cbn [obind].
  set (h := part f 0 42). assert (HZ : forall k, 0 <= k < 42 -> zget h k = zget f k) by (intros; unfold h; rewrite zget_part by lia; reflexivity).
  assert (W : rd16 h 16 = total f) by (rewrite rd16_word; apply word_ext; intros; apply HZ; lia).
  assert (A : rd32 h 26 = src f) by (rewrite rd32_addr; apply addr_ext; intros; apply HZ; lia).
  rewrite W, A. pose proof (word_range f 16 HB) as WR. fold (total f) in WR.
  assert (U : u32 (total f - 20) = total f - 20) by (unfold u32; apply Z.mod_small; lia). rewrite U.
  assert (LPf : zlen (message f) = total f - 20) by (unfold message; apply zlen_part; lia). rewrite LPf.
  assert (X : SI rx_icmp (set_rx q4 (s_ttl t) t)) by (eapply SI_rx; [exact HS|exact Q4|assumption]).
  destruct (Z.ltb_spec blen (total f - 20)).
  - rewrite P4. cbn [obind]. eexists _, _. split; [reflexivity|]. split; [exact X|]. split; [apply kept_rx|]. split; [apply (fq_contents _ _ _ _ Q4)|]. split; [lia|reflexivity].
  - rewrite MP by lia. cbn [obind]. rewrite P4. cbn [obind]. eexists _, _. split; [reflexivity|]. split; [exact X|]. split; [apply kept_rx|]. split; [apply (fq_contents _ _ _ _ Q4)|]. split; [reflexivity|lia].
Qed.

(** ** sendto *)
Lemma conf_addr w i : uworld_ok w -> addr32 (conf_ip w i).
Proof.
  intros [(WI & _) _]. unfold conf_ip, conf_at, w_confs. destruct (nth_in_or_default (Z.to_nat i) (map i_conf (w_ifs w)) conf0) as [H|H].
  - apply in_map_iff in H as (x & E & Hx). rewrite <- E. rewrite Forall_forall in WI. apply (WI x Hx).
  - rewrite H. unfold addr32. cbn. lia.
Qed.
Lemma pick_addr w i : uworld_ok w -> addr32 (pick_local w i).
Proof. intros H. unfold pick_local. destruct (negb (conf_ip w i =? 0)); apply conf_addr; assumption. Qed.
Lemma u16_port v : port_ok (u16 v).
Proof. unfold port_ok, u16. apply Z.mod_pos_bound. lia. Qed.
Lemma mtu_le w t : uworld_ok w -> sock_ip_mtu w t <= 1500.
Proof.
  intros _. unfold sock_ip_mtu. destruct (negb (s_open t)); [lia|]. cbv zeta. destruct (w_mtu w (sock_if w t) <=? 14); [lia|].
  destruct (Z.ltb_spec 1500 (w_mtu w (sock_if w t) - 14)); lia.
Qed.
Lemma same_config_refl t : same_config t t.
Proof. unfold same_config. repeat (split; [reflexivity|]). reflexivity. Qed.
(** the queues and the configuration agree; addresses in range *)
Lemma SI_config rx t t' : SI rx t -> same_config t t' -> s_tx t' = s_tx t -> addr32 (s_local t') -> addr32 (s_remote t') -> port_ok (s_src t') -> port_ok (s_dst t') -> SI rx t'.
Proof.
  intros (Q1 & F1 & Q2 & F2 & M & R) (C1 & C2 & C3 & C4 & C5 & C6 & C7 & C8 & C9 & C10 & C11 & C12) T L P S D. unfold SI. rewrite C1, C5, T, C6.
  split; [exact Q1|]. split; [exact F1|]. split; [exact Q2|]. split; [exact F2|]. split; [exact M|].
  destruct R as (R1 & R2 & R3 & R4 & R5 & R6 & R7 & R8). unfold ranges. rewrite C3, C7, C11, C10. repeat (split; [assumption|]). assumption.
Qed.
Lemma SI_tx rx t q c : SI rx t -> fq (s_open t) TXBUF q c -> Forall tx_ok c -> SI rx (set_tx q t).
Proof. intros (Q1 & F1 & Q2 & F2 & M & R) Q C. destruct (fq_con _ _ _ _ Q) as [Q' E]. split; [exact Q1|]. split; [exact F1|]. split; [exact Q'|]. split; [cbn [s_tx set_tx]; rewrite E; exact C|]. split; [exact M|exact R]. Qed.

Lemma mtu_refuses w t h n : 0 <= h <= 28 -> 0 <= n -> s_open t = true -> (sock_ip_mtu w t <=? h) || (sock_ip_mtu w t - h <? n) = true -> too_long w t h n.
Proof.
  intros H N O. unfold sock_ip_mtu, sock_if, too_long. rewrite O. cbn [negb orb]. cbv zeta.
  assert (E : (if zlen (w_ifs w) <=? s_if t then 0 else s_if t) = (if s_if t <? zlen (w_ifs w) then s_if t else 0)) by (destruct (Z.leb_spec (zlen (w_ifs w)) (s_if t)), (Z.ltb_spec (s_if t) (zlen (w_ifs w))); lia).
  rewrite E. set (m := w_mtu w _). destruct (Z.leb_spec m 14); [lia|]. destruct (Z.ltb_spec 1500 (m - 14)); lia.
Qed.
Lemma sendto_udp_spec w id t to b rnd : uworld_ok w -> SI rx_udp t -> Forall byte b -> (match to with Some (ip, port) => addr32 ip /\ port_ok port | None => True end) ->
  exists t' id' r, sendto_udp w id t to b rnd = Some (t', id', r) /\ SI rx_udp t' /\ sent_udp w t to b t' r.
Proof.
  intros HW HS HB HT. pose proof HS as (Q1 & F1 & Q2 & F2 & M & R). pose proof R as (R1 & R2 & R3 & R4 & R5 & R6 & R7 & R8). unfold sendto_udp.
  destruct ((s_dst t =? 0) && match to with Some _ => false | None => true end) eqn:E0.
  { destruct to; [rewrite andb_false_r in E0; discriminate|]. exists t, id, (-1). split; [reflexivity|]. split; [assumption|].
    split; [apply same_config_refl|]. split; [reflexivity|]. split; [reflexivity|]. split; [split; reflexivity|]. right; left. split; [reflexivity|]. split; [reflexivity|]. left. lia. }
  clear E0. set (t1 := match to with Some (ip, port) => set_peer ip port t | None => t end).
  assert (C1 : same_config t t1 /\ s_tx t1 = s_tx t /\ s_local t1 = s_local t /\ s_src t1 = s_src t /\ addr32 (s_remote t1) /\ port_ok (s_dst t1) /\
    match to with Some (ip, p) => s_remote t1 = ip /\ s_dst t1 = p | None => s_remote t1 = s_remote t /\ s_dst t1 = s_dst t end).
  { unfold t1. destruct to as [[ip p]|]; (split; [apply same_config_refl || (unfold same_config; repeat (split; [reflexivity|]); reflexivity)|]);
      (split; [reflexivity|]; split; [reflexivity|]; split; [reflexivity|]; cbn [set_peer s_remote s_dst]; tauto). }
  destruct C1 as (C1 & T1 & L1 & S1 & A1 & P1 & PP).
  destruct ((s_dst t1 =? 0) || (s_remote t1 =? 0)) eqn:E00.
  { exists t1, id, (-1). split; [reflexivity|]. split; [apply (SI_config _ t); try assumption; rewrite ?L1, ?S1; assumption|].
    split; [assumption|]. split; [auto|]. split; [auto|]. split; [assumption|]. right; left. split; [reflexivity|]. split; [assumption|]. lia. }
  set (t2 := if s_src t1 =? 0 then _ else t1).
  assert (C2 : same_config t t2 /\ s_tx t2 = s_tx t /\ s_local t2 = s_local t /\ (s_src t <> 0 -> s_src t2 = s_src t) /\ port_ok (s_src t2) /\ s_remote t2 = s_remote t1 /\ s_dst t2 = s_dst t1).
  { unfold t2. destruct (Z.eqb_spec (s_src t1) 0).
    - cbv zeta. split; [exact C1|]. split; [exact T1|]. split; [exact L1|]. split; [congruence|]. split; [|split; reflexivity].
      cbn [s_src set_src]. pose proof (u16_port rnd) as U. unfold port_ok in *. destruct (Z.ltb_spec (u16 rnd) 1024); lia.
    - split; [exact C1|]. split; [exact T1|]. split; [exact L1|]. split; [auto|]. split; [rewrite S1; assumption|split; reflexivity]. }
  destruct C2 as (C2 & T2 & L2 & S2 & PS2 & RM2 & D2). clearbody t2. cbv zeta.
  match goal with |- context [set_if (u8 ?e) t2] => set (ifx := e) end.
  set (t3 := if s_local (set_if (u8 ifx) t2) =? 0 then set_local (pick_local w ifx) (set_if (u8 ifx) t2) else set_if (u8 ifx) t2).
  assert (C3 : same_config t t3 /\ s_tx t3 = s_tx t /\ (s_local t <> 0 -> s_local t3 = s_local t) /\ addr32 (s_local t3) /\ s_src t3 = s_src t2 /\ s_remote t3 = s_remote t1 /\ s_dst t3 = s_dst t1).
  { unfold t3. cbn [s_local set_if]. destruct (Z.eqb_spec (s_local t2) 0).
    - split; [exact C2|]. split; [exact T2|]. split; [congruence|]. split; [apply pick_addr; assumption|]. split; [reflexivity|]. split; [exact RM2|exact D2].
    - split; [exact C2|]. split; [exact T2|]. split; [intros _; exact L2|]. split; [cbn [s_local set_if]; rewrite L2; assumption|]. split; [reflexivity|]. split; [exact RM2|exact D2]. }
  destruct C3 as (C3 & T3 & L3 & A3 & S3 & RM3 & D3). clearbody t3.
  assert (S3I : SI rx_udp t3) by (apply (SI_config _ t); try assumption; rewrite ?S3, ?RM3, ?D3; assumption).
  assert (PP3 : match to with Some (ip, p) => s_remote t3 = ip /\ s_dst t3 = p | None => s_remote t3 = s_remote t /\ s_dst t3 = s_dst t end) by (destruct to as [[ip p]|]; rewrite RM3, D3; exact PP).
  destruct ((sock_ip_mtu w t3 <=? 28) || (sock_ip_mtu w t3 - 28 <? zlen b)) eqn:EM.
  { exists t3, id, (-1). split; [reflexivity|]. split; [assumption|]. split; [assumption|]. split; [rewrite S3; assumption|]. split; [assumption|]. split; [assumption|]. right; left. split; [reflexivity|]. split; [assumption|]. right. right. destruct (s_open t3) eqn:OO; [right; apply mtu_refuses; [lia|apply zlen_nonneg|assumption|assumption]|left; destruct C3 as (O & _); congruence]. }
  pose proof (mtu_le w t3 HW) as ML. pose proof (zlen_nonneg b) as NB.
  assert (OP : s_open t = true). { destruct C3 as (O & _). rewrite <- O. destruct (s_open t3) eqn:OO; [reflexivity|]. unfold sock_ip_mtu in EM. rewrite OO in EM. cbn in EM. lia. }
  rewrite T3. destruct (fifo_can_push_len (s_tx t) (42 + zlen b)) eqn:CP; cbn [negb].
  2:{ exists t3, id, (-11). split; [reflexivity|]. split; [assumption|]. split; [assumption|]. split; [rewrite S3; assumption|]. split; [assumption|]. split; [assumption|]. right; right; auto. }
  destruct (udp_frame_spec t3 id b) as (f & Ef & Df & Bf); [apply S3I|assumption|lia|]. rewrite Ef. cbn [obind].
  pose proof Df as (LF & Z14 & _).
  destruct (fq_push _ _ _ _ f Q2) as (q & r & l & E & QQ & EN & R0 & CPr & CS); [unfold DESC; lia|]. rewrite E. cbn [obind].
  assert (r = 0) by (apply CPr; rewrite LF; assumption). subst r. change (0 <? 0) with false. cbv iota.
  destruct (fq_con _ _ _ _ QQ) as [QQ' EC]. rewrite <- EC in CS.
  assert (TXF : tx_ok f) by (split; [split; [assumption|lia]|]; split; [lia|assumption]).
  assert (FC : Forall tx_ok (contents q)).
  { destruct CS as [(_ & -> & _)|(_ & [CS|(_ & [CS|CS])])]; [assumption| | |]; rewrite CS; [apply Forall_app2; [assumption|]|constructor|]; constructor; try assumption; constructor. }
  exists (set_tx q t3), (u16 (id + 1)), (zlen b). split; [reflexivity|]. split.
  { eapply SI_tx; [exact S3I| |exact FC]. destruct C3 as (O & _). rewrite O. exact QQ'. }
  split; [exact C3|]. split; [intros X; cbn [s_src set_tx]; rewrite S3; auto|]. split; [exact L3|]. split; [exact PP3|].
  left. split; [reflexivity|]. split; [exact OP|]. split; [exact CP|]. exists f. split; [exact Df|exact EN].
Qed.
Lemma sendto_icmp_spec w id t to b rnd : uworld_ok w -> SI rx_icmp t -> Forall byte b -> (match to with Some (ip, port) => addr32 ip /\ port_ok port | None => True end) ->
  exists t' id' r, sendto_icmp w id t to b rnd = Some (t', id', r) /\ SI rx_icmp t' /\ sent_icmp w t to b t' r.
Proof.
  intros HW HS HB HT. pose proof HS as (Q1 & F1 & Q2 & F2 & M & R). pose proof R as (R1 & R2 & R3 & R4 & R5 & R6 & R7 & R8). unfold sendto_icmp.
  set (t1 := match to with Some (ip, _) => set_peer ip (s_dst t) t | None => t end).
  assert (C1 : same_config t t1 /\ s_tx t1 = s_tx t /\ s_local t1 = s_local t /\ s_src t1 = s_src t /\ s_bound t1 = s_bound t /\ addr32 (s_remote t1) /\ s_dst t1 = s_dst t /\
    match to with Some (ip, p) => s_remote t1 = ip | None => s_remote t1 = s_remote t end).
  { unfold t1. destruct to as [[ip p]|]; (split; [apply same_config_refl || (unfold same_config; repeat (split; [reflexivity|]); reflexivity)|]);
      (split; [reflexivity|]; split; [reflexivity|]; split; [reflexivity|]; split; [reflexivity|]; cbn [set_peer s_remote s_dst]; tauto). }
  destruct C1 as (C1 & T1 & L1 & S1 & B1 & A1 & P1 & PP). clearbody t1. cbv zeta.
  destruct (Z.eqb_spec (s_remote t1) 0).
  { exists t1, id, (-1). split; [reflexivity|]. split; [apply (SI_config _ t); try assumption; rewrite ?L1, ?S1, ?P1; assumption|].
    split; [assumption|]. split; [auto|]. split; [assumption|]. split; [assumption|]. right; left. split; [reflexivity|]. split; assumption. }
  set (t2 := if s_src t1 =? 0 then _ else t1).
  assert (C2 : same_config t t2 /\ s_tx t2 = s_tx t /\ s_local t2 = s_local t /\ s_bound t2 = s_bound t /\ (s_src t <> 0 -> s_src t2 = s_src t) /\ port_ok (s_src t2) /\ s_remote t2 = s_remote t1 /\ s_dst t2 = s_dst t).
  { unfold t2. destruct (Z.eqb_spec (s_src t1) 0).
    - split; [exact C1|]. split; [exact T1|]. split; [exact L1|]. split; [exact B1|]. split; [congruence|]. split; [|split; [reflexivity|exact P1]].
      cbn [s_src set_src]. pose proof (u16_port rnd) as U. unfold port_ok in *. destruct (Z.eqb_spec (u16 rnd) 0); lia.
    - split; [exact C1|]. split; [exact T1|]. split; [exact L1|]. split; [exact B1|]. split; [auto|]. split; [rewrite S1; assumption|split; [reflexivity|exact P1]]. }
  destruct C2 as (C2 & T2 & L2 & B2 & S2 & PS2 & RM2 & D2). clearbody t2.
  assert (S2I : SI rx_icmp t2) by (apply (SI_config _ t); try assumption; rewrite ?L2, ?RM2, ?D2; assumption).
  match goal with |- context [match ?e with Some t => _ | None => Some (t2, id, -22) end] => set (e0 := e) end.
  assert (C3 : (e0 = None /\ s_bound t <> 0 /\ ~ own w (s_bound t)) \/ exists t3, e0 = Some t3 /\ same_config t t3 /\ s_tx t3 = s_tx t /\ addr32 (s_local t3) /\ s_src t3 = s_src t2 /\ s_remote t3 = s_remote t1 /\ s_dst t3 = s_dst t).
  { unfold e0. rewrite B2. pose proof (own_if w (s_bound t)) as OI. destruct (Z.eqb_spec (s_bound t) 0) as [B0|B0]; cbn [negb]; cycle 1.
    - destruct (if_for_local_ip w (s_bound t)) as [ifx ok]. cbn [snd] in OI. destruct ok; [right|left; split; [reflexivity|split; [assumption|intros X; apply OI in X; discriminate]]]. eexists. split; [reflexivity|].
      split; [exact C2|]. split; [exact T2|]. split; [exact R3|]. split; [reflexivity|]. split; [exact RM2|exact D2].
    - right. eexists. split; [reflexivity|]. cbn [s_local set_if]. destruct (s_local t2 =? 0).
      + split; [exact C2|]. split; [exact T2|]. split; [apply pick_addr; assumption|]. split; [reflexivity|]. split; [exact RM2|exact D2].
      + split; [exact C2|]. split; [exact T2|]. split; [cbn [s_local set_if]; rewrite L2; assumption|]. split; [reflexivity|]. split; [exact RM2|exact D2]. }
  clearbody e0. destruct C3 as [(-> & BN & BO) | (t3 & -> & C3 & T3 & A3 & S3 & RM3 & D3)].
  { exists t2, id, (-22). split; [reflexivity|]. split; [assumption|]. split; [assumption|]. split; [assumption|]. split; [assumption|]. split; [destruct to as [[ip p]|]; rewrite RM2; exact PP|]. right; right; left. auto 10. }
  assert (S3I : SI rx_icmp t3) by (apply (SI_config _ t); try assumption; rewrite ?S3, ?RM3, ?D3; assumption).
  assert (PP3 : match to with Some (ip, p) => s_remote t3 = ip | None => s_remote t3 = s_remote t end) by (destruct to as [[ip p]|]; rewrite RM3; exact PP).
  destruct ((sock_ip_mtu w t3 <=? 20) || (zlen b <? 8) || (sock_ip_mtu w t3 - 20 <? zlen b)) eqn:EM.
  { exists t3, id, (-22). split; [reflexivity|]. split; [assumption|]. split; [assumption|]. split; [rewrite S3; assumption|]. split; [assumption|]. split; [assumption|]. right; right; left. split; [reflexivity|]. split; [assumption|].
    destruct (s_open t3) eqn:OO; [|left; destruct C3 as (O & _); congruence]. destruct (Z.ltb_spec (zlen b) 8); [right; left; assumption|]. right. right. left. apply mtu_refuses; [lia|apply zlen_nonneg|assumption|]. rewrite orb_false_r in EM. assumption. }
  pose proof (mtu_le w t3 HW) as ML. pose proof (zlen_nonneg b) as NB.
  assert (OP : s_open t = true). { destruct C3 as (O & _). rewrite <- O. destruct (s_open t3) eqn:OO; [reflexivity|]. unfold sock_ip_mtu in EM. rewrite OO in EM. cbn in EM. lia. }
  rewrite T3. destruct (fifo_can_push_len (s_tx t) (34 + zlen b)) eqn:CP; cbn [negb].
  2:{ exists t3, id, (-11). split; [reflexivity|]. split; [assumption|]. split; [assumption|]. split; [rewrite S3; assumption|]. split; [assumption|]. split; [assumption|]. right; right; right; auto. }
  destruct (icmp_frame_spec t3 id b) as (b' & f & Eb & Ef & Df & Bf); [apply S3I|assumption|lia|]. rewrite Eb. cbn [obind]. rewrite Ef. cbn [obind].
  pose proof Df as (LF & Z14 & _).
  destruct (fq_push _ _ _ _ f Q2) as (q & r & l & E & QQ & EN & R0 & CPr & CS); [unfold DESC; lia|]. rewrite E. cbn [obind].
  assert (r = 0) by (apply CPr; rewrite LF; assumption). subst r. change (0 <? 0) with false. cbv iota.
  destruct (fq_con _ _ _ _ QQ) as [QQ' EC]. rewrite <- EC in CS.
  assert (TXF : tx_ok f) by (split; [split; [assumption|lia]|]; split; [lia|assumption]).
  assert (FC : Forall tx_ok (contents q)).
  { destruct CS as [(_ & -> & _)|(_ & [CS|(_ & [CS|CS])])]; [assumption| | |]; rewrite CS; [apply Forall_app2; [assumption|]|constructor|]; constructor; try assumption; constructor. }
  exists (set_tx q t3), (u16 (id + 1)), (zlen b). split; [reflexivity|]. split.
  { eapply SI_tx; [exact S3I| |exact FC]. destruct C3 as (O & _). rewrite O. exact QQ'. }
  split; [exact C3|]. split; [intros X; cbn [s_src set_tx]; rewrite S3; auto|]. split; [exact D3|]. split; [exact PP3|].
  left. split; [reflexivity|]. split; [exact OP|]. split; [lia|]. split; [exact CP|]. exists f. split; [exact Df|exact EN].
Qed.
