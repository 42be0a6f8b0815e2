(** Memberships stay consistent through every operation. *)
From Verif Require Import Base ListUtil Checksum ChecksumProps Route RouteProps Arp HttpUrl Fifo Forward ForwardSpec ForwardProofs ForwardStep Udp UdpFifo UdpSpec UdpFrames UdpInv UdpOps UdpFlush UdpSafe UdpMcast UdpTotal.

Definition vsame (t t' : sock) : Prop := s_open t' = s_open t /\ s_mc t' = s_mc t.
Lemma F2_in_r {A B} (R : A -> B -> Prop) l l' : Forall2 R l l' -> forall y, In y l' -> exists x, In x l /\ R x y.
Proof. induction 1 as [|a b l l' H F IH]; intros y Hy; [destruct Hy|]. destruct Hy as [<- | Hy]; [exists a; split; [left; reflexivity|assumption]|]. destruct (IH y Hy) as (x & Hx & Rx). exists x. split; [right; assumption|assumption]. Qed.
Lemma F2_nth_r {A B} (R : A -> B -> Prop) l l' : Forall2 R l l' -> forall j y, nth_error l' j = Some y -> exists x, nth_error l j = Some x /\ R x y.
Proof. induction 1 as [|a b l l' H F IH]; intros j y Hy; [destruct j; discriminate|]. destruct j; [injection Hy as <-; exists a; auto|]. apply IH. assumption. Qed.
Lemma MI_same N l l' M M' : Forall2 vsame l l' -> Forall2 same_entry M M' -> MI N l M -> MI N l' M'.
Proof.
  intros FL FM H. assert (KE : forall m m' i g, same_entry m m' -> key m' i g -> key m i g) by (intros m m' i g (S1 & S2 & S3) (K1 & K2 & K3); unfold key; rewrite <- S1, <- S2, <- S3; auto). constructor.
  - intros t Ht O m Hm. destruct (F2_in_r _ _ _ FL t Ht) as (u & Hu & V1 & V2). rewrite V1 in O. rewrite V2 in Hm. exact (mi_closed _ _ _ H u Hu O m Hm).
  - intros t g i Ht Hm. destruct (F2_in_r _ _ _ FL t Ht) as (u & Hu & V1 & V2). rewrite V2 in Hm. exact (mi_range _ _ _ H u g i Hu Hm).
  - intros t a b m Ht Ha Hb. destruct (F2_in_r _ _ _ FL t Ht) as (u & Hu & V1 & V2). rewrite V2 in Ha, Hb. exact (mi_once _ _ _ H u a b m Hu Ha Hb).
  - intros a b m m' i g Ha Hb Ka Kb. destruct (F2_nth_r _ _ _ FM a m Ha) as (x & Nx & Sx). destruct (F2_nth_r _ _ _ FM b m' Hb) as (y & Ny & Sy).
    eapply (mi_unique _ _ _ H a b x y i g Nx Ny); eapply KE; eassumption.
  - intros g i MG. assert (E1 : sumr M' i g = sumr M i g). { clear -FM. induction FM as [|x y M M' (S1 & S2 & S3) FM IH]; [reflexivity|]. cbn [sumr]. rewrite IH. unfold share. rewrite S1, S2, S3. reflexivity. }
    assert (E2 : cnt l' i g = cnt l i g). { clear -FL. induction FL as [|x y l l' (V1 & V2) FL IH]; [reflexivity|]. cbn [cnt]. rewrite IH. unfold has_mcast. rewrite V2. reflexivity. }
    rewrite E1, E2. apply (mi_agree _ _ _ H g i MG).
  - intros m Hm. destruct (F2_in_r _ _ _ FM m Hm) as (x & Hx & (S1 & S2 & S3)). rewrite S1, S3. apply (mi_refs _ _ _ H x Hx).
Qed.
Lemma same_entries M : Forall2 same_entry M M. Proof. apply F2_refl. intros; repeat split. Qed.
Lemma vsame_all l : Forall2 vsame l l. Proof. apply F2_refl. intros; split; reflexivity. Qed.
Lemma MI_socks N l l' M : Forall2 vsame l l' -> MI N l M -> MI N l' M.
Proof. intros F H. eapply MI_same; [exact F|apply same_entries|exact H]. Qed.
Lemma vsame_upd l n t : vsame (sock_at l n) t -> 0 <= n -> Forall2 vsame l (upd l n t).
Proof.
  intros V Hn. unfold upd, sock_at in *. revert V. generalize (Z.to_nat n) as k. induction l as [|x l IH]; intros k V; [destruct k; constructor|].
  destruct k; cbn [set_nth nth] in *; [constructor; [exact V|apply vsame_all]|]. constructor; [split; reflexivity|]. apply IH. assumption.
Qed.
Lemma MI_upd N l n t M : vsame (sock_at l n) t -> 0 <= n -> MI N l M -> MI N (upd l n t) M.
Proof. intros V Hn H. eapply MI_socks; [apply vsame_upd; assumption|assumption]. Qed.

(** Replacing the joins of slot [n] by none, when it has none. *)
Lemma MI_blank N l n t t' M : 0 <= n < zlen l -> sock_at l n = t -> MI N l M -> (forall m, In m (s_mc t) -> fst m = 0) -> (forall m, In m (s_mc t') -> fst m = 0) -> MI N (upd l n t') M.
Proof.
  intros Hn Et H B B'. assert (NB : forall u i g, (forall m, In m (s_mc u) -> fst m = 0) -> multicast g -> has_mcast u i g = false).
  { intros u i g BU MG. destruct (has_mcast u i g) eqn:Q; [|reflexivity]. apply has_mcast_iff in Q. apply BU in Q. cbn [fst] in Q. apply multicast_nz in MG. contradiction. }
  apply (MI_step N l M n t t' M Hn Et H).
  - intros _. exact B'.
  - intros g i Hm G0. apply B' in Hm. cbn [fst] in Hm. contradiction.
  - intros a b m Ha _ F0. apply nth_error_In in Ha. apply B' in Ha. contradiction.
  - exact (mi_unique _ _ _ H).
  - intros g i MG. rewrite !NB by assumption. lia.
  - exact (mi_refs _ _ _ H).
Qed.

(** ** Closing: all groups of the socket are left *)
Definition lonely (l : list sock) (n i g : Z) : Prop := forall j t, nth_error l j = Some t -> j <> Z.to_nat n -> ~ joined t i g.
Lemma drop_all_spec N w n : uworld_ok w -> zlen (w_ifs w) = N -> 0 <= n < 2 -> forall todo st k, Good st -> MI N (u_udp st) (u_mc st) -> (k + todo = 4)%nat ->
  (forall a m, (a < k)%nat -> nth_error (s_mc (sock_at (u_udp st) n)) a = Some m -> fst m = 0) ->
  exists st' e, mcast_drop_all w st n k todo = Some (st', e) /\ Good st' /\ MI N (u_udp st') (u_mc st') /\
    u_tcp st' = u_tcp st /\ u_icmp st' = u_icmp st /\ (forall j, j <> Z.to_nat n -> nth_error (u_udp st') j = nth_error (u_udp st) j) /\
    (forall m, In m (s_mc (sock_at (u_udp st') n)) -> fst m = 0) /\
    (forall x, In x e -> exists g i f, x = UIgmp i f /\ igmp_report w i g 3 f /\ multicast g /\ joined (sock_at (u_udp st) n) i g /\ lonely (u_udp st) n i g) /\
    (forall g i, multicast g -> joined (sock_at (u_udp st) n) i g -> lonely (u_udp st) n i g -> exists e', reported w i g 3 e' /\ incl e' e).
Proof.
  intros HW HN Hn. induction todo as [|todo IH]; intros st k G H HK LO; cbn [mcast_drop_all].
  - exists st, []. split; [reflexivity|]. split; [assumption|]. split; [assumption|]. repeat (split; [reflexivity|]).
    assert (ST : SI rx_udp (sock_at (u_udp st) n)) by (apply (slot_at st FUdp); [assumption|cbn [socks]; destruct G as (_ & -> & _); lia]). destruct ST as (_ & _ & _ & _ & (ML & _) & _).
    assert (AL : forall m, In m (s_mc (sock_at (u_udp st) n)) -> fst m = 0). { intros m Hm. apply In_nth_error in Hm as (a & Ha). apply (LO a m); [|assumption]. assert (a < length (s_mc (sock_at (u_udp st) n)))%nat by (apply nth_error_Some; congruence). unfold zlen in ML. lia. }
    split; [exact AL|]. split; [intros x []|]. intros g i MG J. apply AL in J. cbn [fst] in J. apply multicast_nz in MG. contradiction.
  - set (t := sock_at (u_udp st) n) in *. assert (ST : SI rx_udp t) by (apply (slot_at st FUdp); [assumption|cbn [socks]; destruct G as (_ & -> & _); lia]). destruct ST as (_ & _ & _ & _ & (ML & MF) & _). rewrite Forall_forall in MF.
    assert (LK : (k < length (s_mc t))%nat) by (unfold zlen in ML; lia). pose proof (nth_error_nth' (s_mc t) (0, 0) LK) as NK. destruct (nth k (s_mc t) (0, 0)) as [g ifx] eqn:NE. destruct (Z.eqb_spec g 0) as [G0|G0].
    + cbn [obind]. destruct (IH st (S k) G H ltac:(lia)) as (st' & e & -> & R).
      { intros a m La Na. destruct (Nat.eq_dec a k) as [-> | NA]; [fold t in Na; rewrite NK in Na; injection Na as <-; assumption|]. apply (LO a m); [lia|assumption]. }
      cbn [obind app]. exists st', e. split; [reflexivity|]. exact R.
    + assert (Ht : In t (u_udp st)) by (eapply nth_error_In, at_some; destruct G as (_ & -> & _); lia).
      assert (IN : In (g, ifx) (s_mc t)) by (eapply nth_error_In; exact NK). destruct (MF _ IN) as (A1 & A2). cbn [fst snd] in A1, A2. destruct (mi_range _ _ _ H t g ifx Ht IN G0) as (MG & RI).
      destruct (drop_spec w st n g ifx HW G Hn A1 ltac:(lia)) as (st1 & r & e1 & -> & C). cbn [obind].
      destruct C as [(_ & _ & _ & [C|[C|C]])|(_ & _ & _ & s & L)]; [contradiction|lia|exfalso; apply C; exact IN|].
      pose proof (leaves_good w st n g ifx s st1 e1 G Hn A1 L) as G1. pose proof (MI_leave N w st n g ifx s st1 e1 G Hn H MG L) as H1.
      destruct L as (v & l & L). cbv zeta in L. destruct L as (NS & CS & E1). fold t in NS, E1. assert (s = k) by (apply (mi_once _ _ _ H t s k (g, ifx) Ht NS NK); assumption). subst s.
      assert (HL : 0 <= n < zlen (u_udp st)) by (destruct G as (_ & -> & _); lia).
      assert (T1 : sock_at (u_udp st1) n = set_mc (set_nth k (0, 0) (s_mc t)) t) by (rewrite E1; cbn [u_udp]; apply upd_at; assumption).
      assert (O1 : forall j, j <> Z.to_nat n -> nth_error (u_udp st1) j = nth_error (u_udp st) j) by (intros j NJ; rewrite E1; cbn [u_udp]; apply set_nth_other; congruence).
      assert (LO1 : forall i g', lonely (u_udp st1) n i g' <-> lonely (u_udp st) n i g').
      { intros i g'. unfold lonely. split; intros X j u Nj NJ; (apply (X j u); [|assumption]); [rewrite O1|rewrite <- O1]; assumption. }
      assert (ON' : forall a b m, nth_error (s_mc t) a = Some m -> nth_error (s_mc t) b = Some m -> fst m <> 0 -> a = b) by (intros; eapply (mi_once _ _ _ H t); eassumption).
      assert (J1 : forall i g', multicast g' -> joined (sock_at (u_udp st1) n) i g' <-> joined t i g' /\ ~ (g' = g /\ i = ifx)).
      { intros i g' MG'. rewrite T1. apply (leave_mc (s_mc t) k); [assumption|assumption|apply multicast_nz; assumption]. }
      destruct (IH st1 (S k) G1 H1 ltac:(lia)) as (st2 & e2 & -> & G2 & H2 & TC & IC & OT & AL & EV & EC).
      { intros a m La Na. rewrite T1 in Na. cbn [s_mc set_mc] in Na. apply nth_set in Na as [(-> & ->)|(NA & Na)]; [reflexivity|]. apply (LO a m); [lia|assumption]. }
      cbn [obind]. exists st2, (e1 ++ e2). split; [reflexivity|]. split; [assumption|]. split; [assumption|]. split; [rewrite TC, E1; reflexivity|]. split; [rewrite IC, E1; reflexivity|].
      split; [intros j NJ; rewrite OT, O1 by assumption; reflexivity|]. split; [exact AL|].
      assert (REP : (e1 = [] /\ ~ lonely (u_udp st) n ifx g) \/ (reported w ifx g 3 e1 /\ lonely (u_udp st) n ifx g)).
      { destruct CS as [(NKY & _)|(j & m & NM & KM & CS)].
        { exfalso. destruct (proj2 (MI_member N _ _ ifx g H G0)) as (m & Hm & KM); [exists t; auto|]. exact (NKY m Hm KM). }
        pose proof (MI_unique _ _ _ _ _ _ _ H NM KM) as RM.
        assert (CN : cnt (u_udp st) ifx g = 1 <-> lonely (u_udp st) n ifx g).
        { assert (CU : cnt (upd (u_udp st) n sock0) ifx g = cnt (u_udp st) ifx g - 1).
          { unfold upd. rewrite cnt_upd by (unfold zlen in HL; lia). fold (sock_at (u_udp st) n). fold t. assert (Q1 : has_mcast t ifx g = true) by (apply has_mcast_iff; exact IN).
            assert (Q2 : has_mcast sock0 ifx g = false). { destruct (has_mcast sock0 ifx g) eqn:Q; [|reflexivity]. apply has_mcast_iff in Q. cbn in Q. exfalso. intuition congruence. } rewrite Q1, Q2. cbn [b2z]. lia. }
          transitivity (cnt (upd (u_udp st) n sock0) ifx g = 0); [lia|]. rewrite cnt_zero. unfold lonely. split.
          - intros X j0 u Nj NJ. apply X. apply (nth_error_In _ j0). unfold upd. rewrite set_nth_other by congruence. assumption.
          - intros X u Hu. apply In_nth_error in Hu as (j0 & Nj). unfold upd in Nj. apply nth_set in Nj as [(_ & ->)|(NJ & Nj)]; [cbn; intuition congruence|]. exact (X j0 u Nj NJ). }
        destruct CS as [(R1 & _ & RP)|(R1 & _ & RP)]; [right; split; [assumption|apply CN; lia]|left; split; [assumption|]]. intros X. apply CN in X. lia. }
      split.
      * intros x Hx. apply in_app_or in Hx as [Hx|Hx].
        -- destruct REP as [(-> & _)|(RP & LN)]; [destruct Hx|]. destruct RP as [(f & -> & RP)|(-> & _)]; [|destruct Hx]. destruct Hx as [<- | []]. exists g, ifx, f. auto 10.
        -- destruct (EV x Hx) as (g' & i' & f & X1 & X2 & X3 & X4 & X5). exists g', i', f. apply J1 in X4; [|assumption]. apply LO1 in X5. tauto.
      * intros g' i' MG' J LN. destruct (Z.eq_dec g' g) as [-> | NG]; [destruct (Z.eq_dec i' ifx) as [-> | NI]|].
        -- destruct REP as [(_ & X)|(RP & _)]; [contradiction|]. exists e1. split; [assumption|]. apply incl_appl, incl_refl.
        -- destruct (EC g i' MG') as (e' & RP & IC2); [apply J1; [assumption|split; [assumption|tauto]]|apply LO1; assumption|]. exists e'. split; [assumption|]. apply incl_appr. assumption.
        -- destruct (EC g' i' MG') as (e' & RP & IC2); [apply J1; [assumption|split; [assumption|tauto]]|apply LO1; assumption|]. exists e'. split; [assumption|]. apply incl_appr. assumption.
Qed.

(** ** Every operation *)
Lemma MI_put N st k i t : 0 <= i < zlen (socks st k) -> vsame (sock_at (socks st k) i) t -> MI N (u_udp st) (u_mc st) ->
  MI N (u_udp (set_socks st k (upd (socks st k) i t))) (u_mc (set_socks st k (upd (socks st k) i t))).
Proof. intros Hi V H. destruct k; cbn [set_socks socks u_udp u_mc with_udp with_tcp with_icmp] in *; [assumption| |assumption]. apply MI_upd; [assumption|lia|assumption]. Qed.
Lemma handed_v t f t' : handed t f t' -> vsame t t'.
Proof. intros (A & _). split; apply A. Qed.
Lemma calm_v t t' : calm t t' -> vsame t t'.
Proof. intros A. split; apply A. Qed.
Lemma same_config_v t t' : same_config t t' -> vsame t t'.
Proof. intros A. split; apply A. Qed.
Lemma kept_v t t' : kept t t' -> vsame t t'.
Proof. intros (A & _). split; apply A. Qed.
Lemma F2_of_nth {A} (R : A -> A -> Prop) l l' : length l' = length l -> (forall j x, nth_error l j = Some x -> exists y, nth_error l' j = Some y /\ R x y) -> Forall2 R l l'.
Proof.
  revert l'. induction l as [|x l IH]; intros l' L H; [destruct l'; [constructor|discriminate]|]. destruct l' as [|y l']; [discriminate|]. constructor.
  - destruct (H 0%nat x eq_refl) as (z & Nz & R0). injection Nz as <-. assumption.
  - apply IH; [injection L; auto|]. intros j z Nj. exact (H (S j) z Nj).
Qed.
Theorem MI_ustep N w st o st' r e : uworld_ok w -> zlen (w_ifs w) = N -> op_in w o -> Good st -> MI N (u_udp st) (u_mc st) -> joins_open st o ->
  ustep w st o = Some (st', r, e) -> MI N (u_udp st') (u_mc st').
Proof.
  intros HW HN HO G H JO E. pose proof G as (_ & GU & _ & GI & _). destruct o as [k|fd ip port fo ve|fd ip port|fd|fd s|fd to b rnd|fd blen|i f|i f|i f ins|j|o]; cbn [ustep op_in joins_open] in *.
  - unfold socket in E. pose proof (free_slot_spec (socks st k) 0) as F. destruct (free_slot (socks st k) 0) as [i|]; injection E as <- <- <-; [|assumption].
    destruct F as (R & (t & Nt & Ot) & _). rewrite Z.sub_0_r in Nt. destruct k; cbn [set_socks socks u_udp u_mc with_udp with_tcp with_icmp] in *; [assumption| |assumption].
    assert (Et : sock_at (u_udp st) i = t) by (apply sock_at_in; [lia|assumption]). pose proof (mi_closed _ _ _ H t (nth_error_In _ _ Nt) Ot) as BL.
    apply (MI_blank N (u_udp st) i t); [lia|assumption|assumption|assumption|]. rewrite Et. exact BL.
  - destruct HO as (A & P). unfold bind in E. destruct (fd <? 0); [injection E as <- <- <-; assumption|]. destruct (_ && _); [injection E as <- <- <-; assumption|].
    destruct (decode_spec st fd) as [(x & D0 & _)|(k & i & D0 & D & R)]; rewrite D0 in E; [injection E as <- <- <-; assumption|]. destruct D as (_ & _ & D & _).
    pose proof (bind_sock_spec w k (socks st k) i (sock_at (socks st k) i) ip port fo ve HW A P (slot_at st k i G ltac:(lia))) as B.
    destruct (bind_sock _ _ _ _ _ _ _ _ _) as [t q]. injection E as <- <- <-. apply MI_put; [lia|split; apply B|assumption].
  - destruct HO as (A & P). unfold connect in E. pose proof (unmark_range fd) as UR. destruct (fd <? 0); [injection E as <- <- <-; assumption|]. destruct (is_marked fd MARK_UDP).
    + destruct (Z.leb_spec (zlen (u_udp st)) (unmark fd)); [injection E as <- <- <-; assumption|].
      pose proof (connect_udp_spec w (sock_at (u_udp st) (unmark fd)) ip port HW A P (slot_at st FUdp (unmark fd) G ltac:(cbn [socks]; lia))) as C.
      destruct (connect_udp _ _ _ _) as [t q]. injection E as <- <- <-. apply (MI_put N st FUdp); [cbn [socks]; lia|split; apply C|assumption].
    + destruct (is_marked fd MARK_ICMP).
      * destruct (Z.leb_spec (zlen (u_icmp st)) (unmark fd)); [injection E as <- <- <-; assumption|]. destruct (connect_icmp _ _ _) as [t q]. injection E as <- <- <-. exact H.
      * destruct (is_marked fd MARK_TCP); [destruct (zlen (u_tcp st) <=? unmark fd)|]; injection E as <- <- <-; exact H.
  - unfold close in E. destruct (decode_spec st fd) as [(x & D0 & _)|(k & i & D0 & D & R)]; rewrite D0 in E; [injection E as <- <- <-; assumption|].
    destruct D as (_ & _ & D & _). destruct k; cbn [socks] in D.
    + destruct (s_closed _); injection E as <- <- <-; exact H.
    + destruct (s_open (sock_at (u_udp st) i)) eqn:OP.
      * destruct (drop_all_spec N w i HW HN ltac:(lia) 4 st 0%nat G H eq_refl ltac:(intros; lia)) as (st1 & e1 & E1 & G1 & H1 & _ & _ & _ & AL & _). rewrite E1 in E. cbn [obind] in E. injection E as <- <- <-.
        cbn [u_udp u_mc with_udp]. eapply MI_blank; [|reflexivity|exact H1|exact AL|intros m Hm; cbn in Hm; intuition (subst; reflexivity)]. destruct G1 as (_ & -> & _). lia.
      * cbn [obind] in E. injection E as <- <- <-. cbn [u_udp u_mc with_udp]. eapply MI_blank; [|reflexivity|exact H| |intros m Hm; cbn in Hm; intuition (subst; reflexivity)]; [lia|].
        apply (mi_closed _ _ _ H); [|assumption]. eapply nth_error_In, at_some. lia.
    + injection E as <- <- <-. exact H.
  - destruct (setsockopt_spec w st fd s HW G) as (st2 & r2 & e2 & E2 & _ & C); [destruct s; assumption|]. rewrite E2 in E. injection E as <- <- <-.
    destruct C as [(-> & _)|[(k & i & t & a & b & c & d & tos & _ & _ & Hi & Et & ->)|[(n & g & a & ifx & -> & D & Hn & MG & RI & _ & J & _)|(n & g & a & ifx & sl & -> & D & Hn & MG & RI & _ & J & _)]]].
    + assumption.
    + apply MI_put; [assumption|rewrite Et; split; reflexivity|assumption].
    + eapply MI_join; [exact G|exact Hn|exact H| |exact MG| |exact J]; [|lia]. eapply JO; [exact D|]. split; [lia|]. apply at_some. lia.
    + eapply MI_leave; eassumption.
  - destruct HO as (B & T). unfold sendto in E. destruct (decode_spec st fd) as [(x & D0 & _)|(k & i & D0 & (_ & _ & D & _) & R)]; rewrite D0 in E; [cbn [obind] in E; injection E as <- <- <-; assumption|].
    destruct k; cbn [obind socks] in *.
    + injection E as <- <- <-. assumption.
    + destruct (sendto_udp_spec w (u_id st) (sock_at (u_udp st) i) to b rnd HW (slot_at st FUdp i G ltac:(cbn [socks]; lia)) B T) as (t & id & q & E1 & S & C & _). rewrite E1 in E. cbn [obind] in E.
      injection E as <- <- <-. apply MI_upd; [apply same_config_v; assumption|lia|assumption].
    + destruct (sendto_icmp_spec w (u_id st) (sock_at (u_icmp st) i) to b rnd HW (slot_at st FIcmp i G ltac:(cbn [socks]; lia)) B T) as (t & id & q & E1 & S & C & _). rewrite E1 in E. cbn [obind] in E.
      injection E as <- <- <-. exact H.
  - unfold recvfrom in E. destruct (decode_spec st fd) as [(x & D0 & _)|(k & i & D0 & (_ & _ & D & _) & R)]; rewrite D0 in E; [cbn [obind] in E; injection E as <- <- <-; assumption|].
    destruct k; cbn [obind socks] in *.
    + injection E as <- <- <-. assumption.
    + destruct (recv_udp_spec (sock_at (u_udp st) i) blen (slot_at st FUdp i G ltac:(cbn [socks]; lia))) as (t & q & E1 & S & C & _). rewrite E1 in E. cbn [obind] in E.
      injection E as <- <- <-. apply MI_upd; [apply kept_v; assumption|lia|assumption].
    + destruct (recv_icmp_spec (sock_at (u_icmp st) i) blen (slot_at st FIcmp i G ltac:(cbn [socks]; lia))) as (t & q & E1 & S & C & _). rewrite E1 in E. cbn [obind] in E. injection E as <- <- <-. exact H.
  - destruct HO as (F & I & Z9). destruct (udp_recv_spec w st i f HW G I F (fr69 f Z9)) as (st2 & e2 & E2 & _ & _ & _ & EM & FA & _). rewrite E2 in E. cbn [obind] in E. injection E as <- <- <-.
    rewrite EM. eapply MI_socks; [|exact H]. eapply F2_imp; [exact FA|]. intros x y _ [(_ & _ & _ & HD)|(_ & ->)]; [eapply handed_v; exact HD|split; reflexivity].
  - destruct HO as (F & I & Z9). destruct (icmp_input_spec w st i f HW G I F (fr69 f Z9)) as (st2 & e2 & E2 & _ & _ & EU & EM & _). rewrite E2 in E. cbn [obind] in E. injection E as <- <- <-. rewrite EU, EM. exact H.
  - destruct HO as (F & I & Z9). destruct (igmp_input_spec st i f ins G F) as (st2 & E2 & _ & _ & EU & _ & EM & _). rewrite E2 in E. cbn [obind] in E. injection E as <- <- <-. rewrite EU.
    eapply MI_same; [apply vsame_all|exact EM|exact H].
  - destruct (igmp_timer_spec w st j HW G) as (st2 & e2 & E2 & _ & _ & EU & _ & EM & _). rewrite E2 in E. cbn [obind] in E. injection E as <- <- <-. rewrite EU. eapply MI_same; [apply vsame_all|exact EM|exact H].
  - destruct (flush_spec w o st HW HO G) as (st2 & e2 & p0 & p1 & p2 & p3 & E2 & _ & _ & _ & G2 & _ & EM & FU & _). rewrite E2 in E. cbn [obind] in E. injection E as <- <- <-. rewrite EM.
    eapply MI_socks; [|exact H]. apply F2_of_nth; [destruct G2 as (_ & G2 & _); unfold zlen in *; lia|]. intros j t Nt. destruct (FU j t Nt) as (t' & N' & FD & _). exists t'. split; [assumption|]. apply calm_v. eapply fed_calm. exact FD.
Qed.
Lemma MI0 N : MI N (u_udp ust0) (u_mc ust0).
Proof.
  assert (Z0 : forall t, In t (u_udp ust0) -> t = sock0) by (intros t Ht; cbn in Ht; intuition). assert (M0 : forall m, In m (u_mc ust0) -> m = mship0) by (intros m Hm; cbn in Hm; intuition).
  assert (B0 : forall t m, In t (u_udp ust0) -> In m (s_mc t) -> m = (0, 0)) by (intros t m Ht Hm; rewrite (Z0 t Ht) in Hm; cbn in Hm; intuition). constructor.
  - intros t Ht _ m Hm. rewrite (B0 t m Ht Hm). reflexivity.
  - intros t g i Ht Hm G0. apply (B0 t) in Hm; [|assumption]. congruence.
  - intros t a b m Ht Ha _ F0. apply nth_error_In in Ha. rewrite (B0 t m Ht Ha) in F0. contradiction.
  - intros a b m m' i g Ha _ (_ & _ & K) _. apply nth_error_In in Ha. rewrite (M0 m Ha) in K. contradiction.
  - intros g i MG. transitivity 0; [|symmetry; apply cnt_zero; intros t Ht J; apply (B0 t) in J; [injection J as -> _; apply multicast_nz in MG; contradiction|assumption]].
    apply sumr_key; [intros m Hm; rewrite (M0 m Hm); reflexivity || (cbn; lia)|]. intros m Hm (_ & _ & K). rewrite (M0 m Hm) in K. contradiction.
  - intros m Hm. rewrite (M0 m Hm). cbn. split; [lia|contradiction].
Qed.
