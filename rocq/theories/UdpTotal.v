(** No operation leaves the defined behaviour; memberships stay consistent. *)
From Verif Require Import Base ListUtil Checksum ChecksumProps Route RouteProps Arp HttpUrl Fifo Forward ForwardSpec ForwardProofs ForwardStep Udp UdpFifo UdpSpec UdpFrames UdpInv UdpOps UdpFlush UdpSafe UdpMcast.

Lemma arm_spec i g ins : forall l j, Forall2 same_entry l (arm l j i g ins) /\
  forall k m, nth_error l k = Some m -> exists m', nth_error (arm l j i g ins) k = Some m' /\
    ((m_refs m <> 0 /\ m_if m = i /\ (g = 0 \/ g = m_group m) /\ m_tmr m = false /\ m_tmr m' = ins (j + k)%nat) \/
     (~ (m_refs m <> 0 /\ m_if m = i /\ (g = 0 \/ g = m_group m) /\ m_tmr m = false) /\ m' = m)).
Proof.
  induction l as [|m l IH]; intros j; cbn [arm]; [split; [constructor|]; intros k m Hk; destruct k; discriminate|].
  destruct (IH (S j)) as (A & B). destruct ((m_refs m =? 0) || negb (m_if m =? i) || (negb (g =? 0) && negb (g =? m_group m)) || m_tmr m) eqn:E.
  - split; [constructor; [repeat split|assumption]|]. intros k x Hk. destruct k.
    + injection Hk as <-. exists m. split; [reflexivity|]. right. split; [|reflexivity]. intros (X1 & X2 & X3 & X4). rewrite X4 in E. lia.
    + destruct (B k x Hk) as (x' & Nx & C). exists x'. split; [assumption|]. rewrite Nat.add_succ_r. exact C.
  - split; [constructor; [repeat split|assumption]|]. intros k x Hk. destruct k.
    + injection Hk as <-. eexists. split; [reflexivity|]. left. cbn [m_tmr]. rewrite Nat.add_0_r. destruct (m_tmr m); [rewrite orb_true_r in E; discriminate|]. split; [lia|]. split; [lia|]. split; [lia|]. auto.
    + destruct (B k x Hk) as (x' & Nx & C). exists x'. split; [assumption|]. rewrite Nat.add_succ_r. exact C.
Qed.
Lemma igmp_input_spec st i f ins : Good st -> frame_ok f -> exists st', igmp_input st i f ins = Some st' /\ Good st' /\
  u_tcp st' = u_tcp st /\ u_udp st' = u_udp st /\ u_icmp st' = u_icmp st /\ Forall2 same_entry (u_mc st) (u_mc st') /\
  forall k m, nth_error (u_mc st) k = Some m -> exists m', nth_error (u_mc st') k = Some m' /\
    ((asked f i m /\ m_tmr m = false /\ m_tmr m' = ins k) \/ (~ (asked f i m /\ m_tmr m = false) /\ m' = m)).
Proof.
  intros G (HB & HL). unfold igmp_input. change (rd16 f 16) with (total f). rewrite !rd32_addr. fold (dst f).
  assert (SAME : (forall g, ~ igmp_query f g) -> exists st', Some st = Some st' /\ Good st' /\ u_tcp st' = u_tcp st /\ u_udp st' = u_udp st /\ u_icmp st' = u_icmp st /\ Forall2 same_entry (u_mc st) (u_mc st') /\
    forall k m, nth_error (u_mc st) k = Some m -> exists m', nth_error (u_mc st') k = Some m' /\
    ((asked f i m /\ m_tmr m = false /\ m_tmr m' = ins k) \/ (~ (asked f i m /\ m_tmr m = false) /\ m' = m))).
  { intros NQ. exists st. split; [reflexivity|]. split; [assumption|]. repeat (split; [reflexivity|]). split; [apply F2_refl; intros; repeat split|].
    intros k m Hk. exists m. split; [assumption|]. right. split; [|reflexivity]. intros ((g & Q & _) & _). exact (NQ g Q). }
  pose proof (word_range f 16 HB) as TR. fold (total f) in TR.
  destruct (Z.ltb_spec (zlen f) 42). { apply SAME. intros g (Q & _). lia. }
  destruct ((total f <? 28) || (zlen f <? 14 + total f)) eqn:E1. { apply SAME. intros g (_ & Q1 & Q2 & _). lia. }
  rewrite mread_part by lia. cbn [obind].
  assert (BP : Forall byte (part f 34 (total f - 20))) by (apply part_bytes; assumption). assert (LP : zlen (part f 34 (total f - 20)) = total f - 20) by (apply zlen_part; lia).
  destruct (checksum_accepts_iff_valid (part f 34 (total f - 20)) BP) as (c & -> & _ & CV); [lia|]. cbn [obind].
  destruct (Z.eqb_spec c 0) as [C0|C0]; cbn [negb]. 2:{ apply SAME. intros g (_ & _ & _ & Q & _). apply C0, CV. assumption. }
  destruct (Z.eqb_spec (zget f 34) 17); cbn [negb]. 2:{ apply SAME. intros g (_ & _ & _ & _ & Q & _). contradiction. }
  change (zget f 22) with (ttl f). destruct (Z.eqb_spec (ttl f) 1); cbn [negb]. 2:{ apply SAME. intros g (_ & _ & _ & _ & _ & Q & _). contradiction. }
  cbv zeta. set (g := addr f 38). assert (AG : addr32 g) by (apply addr_range; assumption). pose proof (multicast_iff g AG) as MI.
  destruct (negb (g =? 0) && negb (ip_is_multicast g)) eqn:E2.
  { apply SAME. intros g' (_ & _ & _ & _ & _ & _ & <- & Q & _). fold g in Q. destruct Q as [Q|Q]; [rewrite Q in E2; discriminate|]. apply MI in Q. rewrite Q, andb_false_r in E2. discriminate. }
  destruct (negb (dst f =? 3758096385) && negb (dst f =? g)) eqn:E3.
  { apply SAME. intros g' (_ & _ & _ & _ & _ & _ & <- & _ & Q). fold g in Q. lia. }
  assert (Q : igmp_query f g).
  { split; [lia|]. split; [lia|]. split; [lia|]. split; [apply CV; assumption|]. split; [assumption|]. split; [assumption|]. split; [reflexivity|].
    split; [|lia]. destruct (ip_is_multicast g); [right; apply MI; reflexivity|left; rewrite andb_true_r in E2; lia]. }
  destruct (arm_spec i g ins (u_mc st) 0) as (A & B). eexists. split; [reflexivity|]. split.
  { apply Good_mc; [assumption|rewrite (F2_length _ _ _ A); apply G|]. destruct G as (_ & _ & _ & _ & _ & _ & G7). clear -A G7. induction A as [|x y l l' (H & _) A IH]; [constructor|].
    inversion G7. subst. constructor; [rewrite H; assumption|auto]. }
  repeat (split; [reflexivity|]). cbn [u_mc with_mc]. split; [exact A|]. intros k m Hk. destruct (B k m Hk) as (m' & Nm & C). exists m'. split; [assumption|].
  assert (AS : asked f i m <-> (m_refs m <> 0 /\ m_if m = i /\ (g = 0 \/ g = m_group m))).
  { split; [intros (g' & Q' & R1 & R2 & R3); assert (g' = g) by (destruct Q' as (_ & _ & _ & _ & _ & _ & <- & _); reflexivity); subst g'; auto|]. intros (R1 & R2 & R3). exists g. auto. }
  destruct C as [(C1 & C2 & C3 & C4 & C5)|(C1 & C2)]; [left; split; [apply AS; auto|split; assumption]|right; split; [|assumption]]. intros (X1 & X2). apply C1. apply AS in X1. tauto.
Qed.
Lemma igmp_timer_spec w st j : uworld_ok w -> Good st -> exists st' e, igmp_timer w st j = Some (st', e) /\ Good st' /\
  u_tcp st' = u_tcp st /\ u_udp st' = u_udp st /\ u_icmp st' = u_icmp st /\ Forall2 same_entry (u_mc st) (u_mc st') /\
  (e = [] \/ exists m, nth_error (u_mc st) j = Some m /\ m_tmr m = true /\ m_refs m <> 0 /\ multicast (m_group m) /\ reported w (m_if m) (m_group m) 2 e) /\
  (forall m, nth_error (u_mc st) j = Some m -> m_tmr m = true -> m_refs m <> 0 -> multicast (m_group m) -> reported w (m_if m) (m_group m) 2 e).
Proof.
  intros HW G. unfold igmp_timer. destruct (nth_error (u_mc st) j) as [m|] eqn:N.
  2:{ rewrite nth_overflow by (apply nth_error_None; assumption). cbn [mship0 m_tmr negb]. exists st, []. split; [reflexivity|]. split; [assumption|]. repeat (split; [reflexivity|]).
      split; [apply F2_refl; intros; repeat split|]. split; [left; reflexivity|]. discriminate. }
  rewrite (nth_error_nth _ _ mship0 N). destruct (m_tmr m) eqn:T; cbn [negb].
  2:{ exists st, []. split; [reflexivity|]. split; [assumption|]. repeat (split; [reflexivity|]). split; [apply F2_refl; intros; repeat split|]. split; [left; reflexivity|]. intros x Hx. injection Hx as <-. congruence. }
  set (m' := mkM (m_group m) (m_if m) (m_refs m) false). set (st1 := with_mc st (set_nth j m' (u_mc st))).
  assert (AG : addr32 (m_group m)) by (destruct G as (_ & _ & _ & _ & _ & _ & G7); rewrite Forall_forall in G7; apply (G7 m); eapply nth_error_In; exact N).
  assert (SE : Forall2 same_entry (u_mc st) (set_nth j m' (u_mc st))).
  { clear -N. revert j N. induction (u_mc st) as [|x l IH]; intros j N; [destruct j; discriminate|]. destruct j; cbn [set_nth nth_error] in *.
    - injection N as ->. constructor; [repeat split|]. apply F2_refl. intros; repeat split.
    - constructor; [repeat split|]. apply IH. assumption. }
  assert (G1 : Good st1). { destruct G as (G1 & G2 & G3 & G4 & G5 & G6 & G7). destruct (mc_table_set (u_mc st) j m' G6 G7 AG) as (T1 & T2). repeat (split; [assumption|]). exact T2. }
  destruct (Z.eqb_spec (m_refs m) 0).
  { exists st1, []. split; [reflexivity|]. split; [assumption|]. repeat (split; [reflexivity|]). split; [exact SE|]. split; [left; reflexivity|]. intros x Hx. injection Hx as <-. congruence. }
  destruct (ip_is_multicast (m_group m)) eqn:MG.
  - apply multicast_iff in MG; [|assumption]. destruct (send_report_spec w st1 (m_if m) (m_group m) 2 HW AG MG ltac:(auto)) as (e & v & -> & RP).
    eexists _, e. split; [reflexivity|]. split; [apply Good_id; assumption|]. repeat (split; [reflexivity|]). split; [exact SE|]. split; [right; exists m; auto|]. intros x Hx. injection Hx as <-. auto.
  - unfold igmp_send_report. rewrite MG. cbn [negb]. exists st1, []. split; [reflexivity|]. split; [assumption|]. repeat (split; [reflexivity|]). split; [exact SE|]. split; [left; reflexivity|].
    intros x Hx. injection Hx as <-. intros _ _ M. apply multicast_iff in M; [congruence|assumption].
Qed.

(** ** Every step is defined *)
Lemma op_macs w o : op_in w (OFlush o) -> macs_ok o.
Proof. intros H. exact H. Qed.
Lemma fr69 f : (34 <= zlen f -> zget f 14 = 69) -> 42 <= zlen f -> zget f 14 = 69.
Proof. intros H L. apply H. lia. Qed.
Theorem ustep_defined w st o : uworld_ok w -> op_in w o -> Good st -> exists st' r e, ustep w st o = Some (st', r, e) /\ Good st'.
Proof.
  intros HW HO G. destruct o as [k|fd ip port fo ve|fd ip port|fd|fd s|fd to b rnd|fd blen|i f|i f|i f ins|j|o]; cbn [ustep op_in] in *.
  - pose proof (socket_good st k G). destruct (socket st k) as [st' r]. eexists _, _, _. split; [reflexivity|assumption].
  - destruct HO as (A & P). pose proof (bind_good w st fd ip port fo ve HW A P G). destruct (bind w st fd ip port fo ve) as [st' r]. eexists _, _, _. split; [reflexivity|assumption].
  - destruct HO as (A & P). pose proof (connect_good w st fd ip port HW A P G). destruct (connect w st fd ip port) as [st' r]. eexists _, _, _. split; [reflexivity|assumption].
  - apply close_good; assumption.
  - destruct (setsockopt_spec w st fd s HW G) as (st' & r & e & E & G' & _); [destruct s; assumption|]. eexists _, _, _. split; [exact E|assumption].
  - destruct HO as (B & T). unfold sendto. destruct (decode_spec st fd) as [(e & -> & _)|(k & i & -> & (_ & _ & D & _) & R)]; [eexists _, _, _; split; [reflexivity|assumption]|].
    destruct k; cbn [obind].
    + eexists _, _, _. split; [reflexivity|assumption].
    + destruct (sendto_udp_spec w (u_id st) (sock_at (u_udp st) i) to b rnd HW (slot_at st FUdp i G ltac:(cbn [socks] in *; lia)) B T) as (t & id & r & -> & S & _). cbn [obind].
      eexists _, _, _. split; [reflexivity|]. apply Good_id, Good_udp; assumption.
    + destruct (sendto_icmp_spec w (u_id st) (sock_at (u_icmp st) i) to b rnd HW (slot_at st FIcmp i G ltac:(cbn [socks] in *; lia)) B T) as (t & id & r & -> & S & _). cbn [obind].
      eexists _, _, _. split; [reflexivity|]. apply Good_id, Good_icmp; assumption.
  - unfold recvfrom. destruct (decode_spec st fd) as [(e & -> & _)|(k & i & -> & (_ & _ & D & _) & R)]; [eexists _, _, _; split; [reflexivity|assumption]|].
    destruct k; cbn [obind].
    + eexists _, _, _. split; [reflexivity|assumption].
    + destruct (recv_udp_spec (sock_at (u_udp st) i) blen (slot_at st FUdp i G ltac:(cbn [socks] in *; lia))) as (t & r & -> & S & _). cbn [obind]. eexists _, _, _. split; [reflexivity|]. apply Good_udp; assumption.
    + destruct (recv_icmp_spec (sock_at (u_icmp st) i) blen (slot_at st FIcmp i G ltac:(cbn [socks] in *; lia))) as (t & r & -> & S & _). cbn [obind]. eexists _, _, _. split; [reflexivity|]. apply Good_icmp; assumption.
  - destruct HO as (F & I & Z9). destruct (udp_recv_spec w st i f HW G I F (fr69 f Z9)) as (st' & e & -> & G' & _). cbn [obind]. eexists _, _, _. split; [reflexivity|assumption].
  - destruct HO as (F & I & Z9). destruct (icmp_input_spec w st i f HW G I F (fr69 f Z9)) as (st' & e & -> & G' & _). cbn [obind]. eexists _, _, _. split; [reflexivity|assumption].
  - destruct HO as (F & I & Z9). destruct (igmp_input_spec st i f ins G F) as (st' & -> & G' & _). cbn [obind]. eexists _, _, _. split; [reflexivity|assumption].
  - destruct (igmp_timer_spec w st j HW G) as (st' & e & -> & G' & _). cbn [obind]. eexists _, _, _. split; [reflexivity|assumption].
  - destruct (flush_spec w o st HW HO G) as (st' & e & p0 & p1 & p2 & p3 & -> & _ & _ & _ & G' & _). cbn [obind]. eexists _, _, _. split; [reflexivity|assumption].
Qed.
Lemma Good0 : Good ust0.
Proof.
  split; [reflexivity|]. split; [reflexivity|]. split; [repeat (constructor; [apply SI0|]); constructor|]. split; [reflexivity|]. split; [repeat (constructor; [apply SI0|]); constructor|].
  split; [reflexivity|]. cbn [ust0 u_mc repeat]. repeat (constructor; [apply addr0|]). constructor.
Qed.
