(** Histories: bound ports stay exclusive; what a socket reads is what arrived. *)
From Verif Require Import Base ListUtil Checksum ChecksumProps Route RouteProps Arp HttpUrl Fifo Forward ForwardSpec ForwardProofs ForwardStep Udp UdpFifo UdpSpec UdpFrames UdpInv UdpOps UdpFlush UdpSafe UdpMcast UdpTotal UdpMember UdpTable.

Lemma reaches_good P st : reaches P st -> Good st.
Proof.
  induction 1 as [|w st o st' r e _ G HW HO _ E]; [apply Good0|]. destruct (ustep_defined w st o HW HO G) as (st2 & r2 & e2 & E2 & G2). rewrite E in E2. injection E2 as <- _ _. assumption.
Qed.
Lemma ustep_good w st o st' r e : uworld_ok w -> op_in w o -> Good st -> ustep w st o = Some (st', r, e) -> Good st'.
Proof. intros HW HO G E. destruct (ustep_defined w st o HW HO G) as (st2 & r2 & e2 & E2 & G2). rewrite E in E2. injection E2 as <- _ _. assumption. Qed.
Lemma reaches_some P st : reaches P st -> reached st.
Proof. induction 1; [constructor|]. econstructor; try eassumption. exact I. Qed.
Lemma lives_reached N st : lives N st -> reached st.
Proof. induction 1; [constructor|]. econstructor; try eassumption. exact I. Qed.
Lemma MI_more N N' l M : N <= N' -> MI N l M -> MI N' l M.
Proof. intros L H. destruct H as [A B C D E F]. constructor; try assumption. intros t g i Ht Hm G0. destruct (B t g i Ht Hm G0). split; [assumption|lia]. Qed.
Lemma lives_MI N st : lives N st -> MI N (u_udp st) (u_mc st).
Proof.
  induction 1 as [N|N w st o st' r e L IH LE HW HO JO E]; [apply MI0|].
  eapply MI_ustep; [exact HW|reflexivity|exact HO|exact (reaches_good _ _ (lives_reached _ _ L))|eapply MI_more; [exact LE|exact IH]|exact JO|exact E].
Qed.

(** ** Ports *)
Definition XI (st : ust) : Prop := forall k, exclusive (socks st k) /\ forall t, In t (socks st k) -> s_bound t <> 0 -> s_local t = s_bound t.
Lemma XI0 : XI ust0.
Proof.
  intros k. assert (Z0 : forall t, In t (socks ust0 k) -> t = sock0) by (intros t Ht; destruct k; cbn in Ht; intuition).
  split; [|intros t Ht; rewrite (Z0 t Ht); contradiction]. intros i j t u Ni _ _ (C & _). apply nth_error_In in Ni. rewrite (Z0 t Ni) in C. contradiction.
Qed.
Lemma designates_fun st fd k j j' : designates st fd k j -> designates st fd k j' -> j = j'.
Proof. intros (_ & -> & _) (_ & -> & _). reflexivity. Qed.
Definition mild (t t' : sock) : Prop := s_src t' = 0 \/ (s_src t' = s_src t /\ (s_local t' = s_local t \/ s_local t = 0)).
Lemma change_mild w st o r k j t t' : careful st o -> slot st k j t -> (s_bound t <> 0 -> s_local t = s_bound t) -> change w st o r k j t t' ->
  (mild t t' /\ (s_bound t' <> 0 -> s_local t' = s_bound t')) \/
  (exists fd ip port, o = OBind fd ip port true false /\ designates st fd k j /\ s_src t' = port /\ free_port (socks st k) j (s_local t') port /\ (s_bound t' <> 0 -> s_local t' = s_bound t')).
Proof.
  intros CA SL BL C. destruct C as [t' (A1 & A2 & A3 & A4)|t' -> -> OP ->|fd ip port t' -> -> D S A1 A2 A3 A4 F|fd ip port t' -> CN A1 A2 A3 A4 A5|fd t' -> -> D ->|fd to b rnd t' -> D A1 A2 A3 A4].
  - left. split; [right; split; [assumption|left; assumption]|]. rewrite A4, A3. assumption.
  - left. split; [right; split; [reflexivity|left; reflexivity]|exact BL].
  - right. exists fd, ip, port. repeat (split; [first [reflexivity|assumption]|]). rewrite A2. intros N0. apply A3. assumption.
  - left. destruct CN as (F0 & JE & _). destruct (CA k j t F0 JE SL) as [S0|B0].
    + split; [left; congruence|]. rewrite A3. intros B0. destruct (A4 B0) as [-> | ->]; [reflexivity|apply BL; assumption].
    + assert (LB : s_local t' = s_local t) by (destruct (A4 B0) as [-> | ->]; [symmetry; apply BL; assumption|reflexivity]).
      split; [right; split; [assumption|left; assumption]|]. rewrite A3, LB. assumption.
  - left. split; [left; reflexivity|]. intros X. contradiction.
  - left. pose proof (CA k j t D SL) as S0. split.
    + right. split; [apply A3; assumption|]. destruct A4 as [L|[L|(B & L)]]; [left; assumption|right; assumption|left; rewrite L; symmetry; apply BL; assumption].
    + rewrite A2. intros B0. specialize (BL B0). destruct A4 as [L|[L|(B & L)]]; congruence.
Qed.
Lemma clash_sym t u : clash t u -> clash u t. Proof. unfold clash. intros (A & B & C). repeat split; try congruence. intuition congruence. Qed.
Lemma XI_step w st o st' r e : uworld_ok w -> op_in w o -> Good st -> careful st o -> XI st -> ustep w st o = Some (st', r, e) -> XI st'.
Proof.
  intros HW HO G CA X E. pose proof (ustep_table _ _ _ _ _ _ HW HO G E) as TS. pose proof (ustep_good _ _ _ _ _ _ HW HO G E) as G'.
  intros k. destruct (X k) as (EX & BL).
  assert (LEN : zlen (socks st' k) = zlen (socks st k)). { destruct G as (A1 & A2 & _ & A3 & _), G' as (B1 & B2 & _ & B3 & _). destruct k; cbn [socks]; lia. }
  assert (BACK : forall i t', nth_error (socks st' k) i = Some t' -> exists t, nth_error (socks st k) i = Some t /\ In t (socks st k) /\
     ((mild t t' /\ (s_bound t' <> 0 -> s_local t' = s_bound t')) \/
      (exists fd ip port, o = OBind fd ip port true false /\ designates st fd k (Z.of_nat i) /\ s_src t' = port /\ free_port (socks st k) (Z.of_nat i) (s_local t') port /\ (s_bound t' <> 0 -> s_local t' = s_bound t')))).
  { intros i t' N'. assert (L' : (i < length (socks st' k))%nat) by (apply nth_error_Some; congruence). destruct (nth_error (socks st k) i) as [t|] eqn:N; [|apply nth_error_None in N; unfold zlen in LEN; lia].
    exists t. split; [reflexivity|]. split; [eapply nth_error_In; exact N|]. assert (SL : slot st k (Z.of_nat i) t) by (split; [lia|rewrite Nat2Z.id; assumption]).
    destruct (TS k (Z.of_nat i) t SL) as (t2 & (_ & N2) & C). rewrite Nat2Z.id, N' in N2. injection N2 as <-.
    eapply change_mild; [exact CA|exact SL| |exact C]. intros B0. apply BL; [eapply nth_error_In; exact N|assumption]. }
  split.
  - assert (HALF : forall i j t' u' t u, nth_error (socks st' k) i = Some t' -> nth_error (socks st' k) j = Some u' -> nth_error (socks st k) i = Some t -> nth_error (socks st k) j = Some u -> i <> j -> mild u u' ->
      (exists fd ip port, o = OBind fd ip port true false /\ designates st fd k (Z.of_nat i) /\ s_src t' = port /\ free_port (socks st k) (Z.of_nat i) (s_local t') port) -> ~ clash t' u').
    { intros i j t' u' t u _ _ Ni Nj NE M (fd & ip & port & _ & _ & SP & FP) (C0 & C1 & C2). destruct M as [M|(M1 & M2)]; [congruence|].
      destruct FP as [FP|FP]; [congruence|]. destruct (FP j u Nj) as (F1 & F2 & F3); [rewrite Nat2Z.id; auto|congruence|]. destruct M2 as [M2|M2]; [|contradiction]. rewrite M2 in C2. intuition congruence. }
    intros i j t' u' Ni' Nj' NE CL. destruct (BACK i t' Ni') as (t & Ni & It & Ct). destruct (BACK j u' Nj') as (u & Nj & Iu & Cu).
    destruct Ct as [(Mt & _)|(fd & ip & port & O1 & D1 & S1 & F1 & _)], Cu as [(Mu & _)|(fd2 & ip2 & port2 & O2 & D2 & S2 & F2 & _)].
    + destruct CL as (C0 & C1 & C2). destruct Mt as [Mt|(T1 & T2)]; [contradiction|]. destruct Mu as [Mu|(U1 & U2)]; [congruence|].
      apply (EX i j t u Ni Nj NE). unfold clash. split; [congruence|]. split; [congruence|]. destruct T2 as [T2|T2], U2 as [U2|U2]; intuition congruence.
    + apply clash_sym in CL. revert CL. eapply (HALF j i u' t' u t); eauto. exists fd2, ip2, port2. auto.
    + revert CL. eapply (HALF i j t' u' t u); eauto. exists fd, ip, port. auto.
    + rewrite O1 in O2. injection O2 as <- <- <-. pose proof (designates_fun _ _ _ _ _ D1 D2). apply NE. lia.
  - intros t' Ht' B0. apply In_nth_error in Ht' as (i & N'). destruct (BACK i t' N') as (t & _ & _ & [(_ & H)|(? & ? & ? & _ & _ & _ & _ & H)]); apply H; assumption.
Qed.
Lemma XI_reaches st : reaches (fun _ st o => careful st o) st -> XI st.
Proof. induction 1 as [|w st o st' r e RC IH HW HO CA E]; [apply XI0|]. eapply XI_step; try eassumption. eapply reaches_good. exact RC. Qed.

(** ** What a socket reads *)
Lemma subseq_refl {A} (l : list A) : subseq l l. Proof. induction l; [constructor|apply sub_take; assumption]. Qed.
Lemma subseq_nil {A} (l : list A) : subseq [] l. Proof. induction l; constructor; assumption. Qed.
Lemma subseq_app {A} (a b a' b' : list A) : subseq a a' -> subseq b b' -> subseq (a ++ b) (a' ++ b').
Proof. intros H. revert b b'. induction H; intros b b' HB; cbn [app]; [assumption|apply sub_skip; auto|apply sub_take; auto]. Qed.
Lemma subseq_trans {A} (a b c : list A) : subseq a b -> subseq b c -> subseq a c.
Proof.
  intros H1 H2. revert a H1. induction H2 as [|x l l' _ IH|x l l' _ IH]; intros a H1.
  - assumption.
  - constructor. auto.
  - inversion H1; subst; [apply sub_skip|apply sub_take]; auto.
Qed.
Lemma subseq_map {A B} (f : A -> B) l l' : subseq l l' -> subseq (map f l) (map f l').
Proof. induction 1; cbn; [constructor|apply sub_skip; assumption|apply sub_take; assumption]. Qed.
Definition quiet_op (o : uop) : Prop := match o with ORecv _ _ | OUdp _ _ | OFlush _ | OClose _ => False | _ => True end.
Lemma slot_put st k i t' k' j t : 0 <= i < zlen (socks st k) -> slot st k' j t -> s_rx t' = s_rx (sock_at (socks st k) i) ->
  exists t2, slot (set_socks st k (upd (socks st k) i t')) k' j t2 /\ s_rx t2 = s_rx t.
Proof.
  intros I (J & N) E.
  assert (D : {k' = k /\ j = i} + {~ (k' = k /\ j = i)}). { destruct (Z.eq_dec j i); [|right; tauto]. destruct k, k'; first [left; split; [reflexivity|assumption]|right; intros [X _]; discriminate X]. }
  destruct D as [(-> & ->)|NE].
  - exists t'. split; [|rewrite E, (sock_at_in _ _ _ J N); reflexivity]. split; [assumption|]. rewrite set_socks_same. unfold upd. apply set_nth_same. unfold zlen in I. lia.
  - exists t. split; [|reflexivity]. split; [assumption|]. rewrite socks_set. destruct k, k'; try exact N; rewrite upd_other; try exact N; try lia; intros X; apply NE; split; congruence || lia.
Qed.
Lemma slot_upd_mc st l v n mc j t : 0 <= n -> slot st FUdp j t -> exists t2, slot (mkU (u_tcp st) (upd (u_udp st) n (set_mc mc (sock_at (u_udp st) n))) (u_icmp st) l v) FUdp j t2 /\ s_rx t2 = s_rx t.
Proof.
  intros N0 (J & N). cbn [socks] in N. destruct (Z.eq_dec j n) as [-> |NE].
  - exists (set_mc mc (sock_at (u_udp st) n)). split; [split; [assumption|]; cbn [socks u_udp]; unfold upd; apply set_nth_same; apply nth_error_Some; congruence|]. cbn [set_mc s_rx]. rewrite (sock_at_in _ _ _ J N). reflexivity.
  - exists t. split; [split; [assumption|]; cbn [socks u_udp]; rewrite upd_other by lia; assumption|reflexivity].
Qed.
Lemma slot_id st v k j t : slot st k j t -> slot (with_id st v) k j t.
Proof. intros (A & B). split; [exact A|]. destruct k; exact B. Qed.
Lemma quiet_rx w st o st' r e : uworld_ok w -> op_in w o -> Good st -> quiet_op o -> ustep w st o = Some (st', r, e) ->
  forall j t, slot st FUdp j t -> s_open t = true -> exists t', slot st' FUdp j t' /\ s_rx t' = s_rx t.
Proof.
  intros HW HO G Q E j0 t SL OP. assert (SELF : exists t', slot st FUdp j0 t' /\ s_rx t' = s_rx t) by (exists t; auto).
  destruct o as [k|fd ip port fo ve|fd ip port|fd|fd s|fd to b rnd|fd blen|i f|i f|i f ins|j|o]; cbn [ustep op_in quiet_op] in *; try contradiction.
  - unfold socket in E. pose proof (free_slot_spec (socks st k) 0) as F. destruct (free_slot (socks st k) 0) as [i|]; injection E as <- <- <-; [|exact SELF].
    destruct F as (R & (u & Nu & Ou) & _). rewrite Z.sub_0_r in Nu. destruct SL as (J & N). exists t. split; [|reflexivity]. split; [assumption|]. rewrite socks_set. cbn [socks] in *. destruct k; try exact N. rewrite upd_other; [exact N|lia|lia|]. intros ->. cbn [socks] in Nu. congruence.
  - destruct HO as (A & P). unfold bind in E. destruct (fd <? 0); [injection E as <- <- <-; exact SELF|]. destruct (_ && _); [injection E as <- <- <-; exact SELF|].
    destruct (decode_spec st fd) as [(x & D0 & _)|(k & i & D0 & D & R)]; rewrite D0 in E; [injection E as <- <- <-; exact SELF|]. destruct D as (_ & _ & D & _).
    destruct (bind_sock w k (socks st k) i (sock_at (socks st k) i) ip port fo ve) as [t' q] eqn:B. injection E as <- <- <-. apply slot_put; [lia|exact SL|].
    unfold bind_sock in B. destruct (if_for_local_ip w ip) as [ifx ok]. destruct (match k with FTcp => _ | _ => _ end); [injection B as <- <-; reflexivity|]. destruct (negb fo); [injection B as <- <-; reflexivity|]. cbv zeta in B.
    destruct (bind_port_in_use _ _ _ _); [injection B as <- <-; reflexivity|]. destruct ve; injection B as <- <-; reflexivity.
  - unfold connect in E. pose proof (unmark_range fd) as UR. destruct (fd <? 0); [injection E as <- <- <-; exact SELF|]. destruct (is_marked fd MARK_UDP).
    + destruct (Z.leb_spec (zlen (u_udp st)) (unmark fd)); [injection E as <- <- <-; exact SELF|].
      destruct (connect_udp w (sock_at (u_udp st) (unmark fd)) ip port) as [t' q] eqn:C. injection E as <- <- <-. rewrite set_put_udp. apply slot_put; [cbn [socks]; lia|exact SL|]. cbn [socks].
      unfold connect_udp in C. destruct (negb _); [destruct (if_for_local_ip _ _) as [? ok]; destruct ok; cbn [negb] in C|]; injection C as <- <-; reflexivity.
    + destruct (is_marked fd MARK_ICMP).
      * destruct (Z.leb_spec (zlen (u_icmp st)) (unmark fd)); [injection E as <- <- <-; exact SELF|]. destruct (connect_icmp _ _ _) as [t' q]. injection E as <- <- <-. exact SELF.
      * destruct (is_marked fd MARK_TCP); [destruct (zlen (u_tcp st) <=? unmark fd)|]; injection E as <- <- <-; exact SELF.
  - destruct (setsockopt_spec w st fd s HW G) as (st2 & r2 & e2 & E2 & _ & C); [destruct s; assumption|]. rewrite E2 in E. injection E as <- <- <-.
    destruct C as [(-> & _)|[(k & i & u & a & b & c & d & tos & _ & _ & Hi & Et & ->)|[(n & g & a & ifx & -> & D & Hn & MG & RI & _ & J & _)|(n & g & a & ifx & sl & -> & D & Hn & MG & RI & _ & J & _)]]].
    + exact SELF.
    + apply slot_put; [assumption|exact SL|rewrite Et; reflexivity].
    + destruct J as (s & j & x & m & m' & v & _ & _ & _ & _ & ->). apply slot_upd_mc; [lia|exact SL].
    + destruct J as (v & l & _ & _ & ->). apply slot_upd_mc; [lia|exact SL].
  - destruct HO as (B & T). unfold sendto in E. destruct (decode_spec st fd) as [(x & D0 & _)|(k & i & D0 & (_ & _ & D & _) & R)]; rewrite D0 in E; [cbn [obind] in E; injection E as <- <- <-; exact SELF|].
    destruct k; cbn [obind socks] in *.
    + injection E as <- <- <-. exact SELF.
    + destruct (sendto_udp_spec w (u_id st) (sock_at (u_udp st) i) to b rnd HW (slot_at st FUdp i G ltac:(cbn [socks]; lia)) B T) as (t' & id & q & E1 & S & C & _). rewrite E1 in E. cbn [obind] in E.
      injection E as <- <- <-. rewrite set_put_udp. destruct (slot_put st FUdp i t' FUdp j0 t ltac:(cbn [socks]; lia) SL ltac:(apply C)) as (t2 & S2 & E2). exists t2. split; [apply slot_id; exact S2|exact E2].
    + destruct (sendto_icmp_spec w (u_id st) (sock_at (u_icmp st) i) to b rnd HW (slot_at st FIcmp i G ltac:(cbn [socks]; lia)) B T) as (t' & id & q & E1 & S & C & _). rewrite E1 in E. cbn [obind] in E. injection E as <- <- <-. exists t. split; [|reflexivity]. destruct SL as (A1 & A2). split; assumption.
  - destruct HO as (F & I & Z9). destruct (icmp_input_spec w st i f HW G I F (fr69 f Z9)) as (st2 & e2 & E2 & _ & _ & EU & _). rewrite E2 in E. cbn [obind] in E. injection E as <- <- <-. exists t. split; [|reflexivity]. destruct SL as (A1 & A2). split; [assumption|]. cbn [socks] in *. rewrite EU. assumption.
  - destruct HO as (F & I & Z9). destruct (igmp_input_spec st i f ins G F) as (st2 & E2 & _ & _ & EU & _). rewrite E2 in E. cbn [obind] in E. injection E as <- <- <-. exists t. split; [|reflexivity]. destruct SL as (A1 & A2). split; [assumption|]. cbn [socks] in *. rewrite EU. assumption.
  - destruct (igmp_timer_spec w st j HW G) as (st2 & e2 & E2 & _ & _ & EU & _). rewrite E2 in E. cbn [obind] in E. injection E as <- <- <-. exists t. split; [|reflexivity]. destruct SL as (A1 & A2). split; [assumption|]. cbn [socks] in *. rewrite EU. assumption.
Qed.
Lemma enqueued_sub f d f' : enqueued f d f' -> subseq (contents f') (contents f ++ [d]) /\ (fifo_can_push_len f (zlen d) = true -> ~ unlucky f d -> contents f' = contents f ++ [d]).
Proof.
  intros [(E & ->)|[(E & ->)|(E & U & [-> | ->])]].
  - split; [|congruence]. rewrite <- (app_nil_r (contents f)) at 1. apply subseq_app; [apply subseq_refl|apply subseq_nil].
  - split; [apply subseq_refl|auto].
  - split; [apply subseq_nil|intros; contradiction].
  - split; [|intros; contradiction]. apply (subseq_app [] [d] (contents f) [d]); [apply subseq_nil|apply subseq_refl].
Qed.
(** the multicasts looped back to a socket *)
Lemma fed_brings w es t t' : fed w es t t' -> exists l, subseq l (map (fun x => snd (snd x)) es) /\ Forall (fun f => multicast (dst f) /\ exists i, asks w i f t) l /\
  subseq (contents (s_rx t')) (contents (s_rx t) ++ l) /\ ((forall f, In f (map (fun x => snd (snd x)) es) -> ~ multicast (dst f)) -> l = [] /\ s_rx t' = s_rx t).
Proof.
  induction 1 as [t t' C E _|b i g es t t1 t' L F IH].
  - exists []. split; [constructor|]. split; [constructor|]. rewrite E, app_nil_r. split; [apply subseq_refl|auto].
  - destruct IH as (l & S1 & F1 & S2 & X). destruct L as (C & [(B & M & V & FR & WN & EQ & _)|(NW & ER & _)]).
    + exists (g :: l). cbn [map snd]. split; [apply sub_take; assumption|]. split.
      * constructor; [split; [assumption|exists i; repeat (split; [assumption|]); assumption]|]. eapply Forall_impl; [|exact F1]. intros f (M1 & i1 & V1 & R1 & W1). split; [assumption|]. exists i1. repeat (split; [assumption|]). eapply calm_wants; eassumption.
      * split; [|intros NM; exfalso; apply (NM g); [left; reflexivity|assumption]]. apply enqueued_sub in EQ as (EQ & _). eapply subseq_trans; [exact S2|]. change (g :: l) with ([g] ++ l). rewrite app_assoc. apply subseq_app; [exact EQ|apply subseq_refl].
    + exists l. cbn [map snd]. split; [constructor; assumption|]. split.
      * eapply Forall_impl; [|exact F1]. intros f (M1 & i1 & V1 & R1 & W1). split; [assumption|]. exists i1. repeat (split; [assumption|]). eapply calm_wants; eassumption.
      * rewrite ER in S2, X. split; [exact S2|]. intros NM. apply X. intros f Hf. apply NM. right. assumption.
Qed.
Lemma tags_snd l p0 p1 : length l = 2%nat -> map (fun x => snd (snd x)) (tags l [p0; p1]) = map snd (p0 ++ p1).
Proof.
  destruct l as [|a [|b [|]]]; try discriminate. intros _. unfold tags, tag. cbn [combine map fst snd concat]. rewrite app_nil_r, !map_app, !map_map. reflexivity.
Qed.
Lemma rx_step j d t : uworld_ok (d_w d) -> op_in (d_w d) (d_o d) -> Good (d_st d) -> ustep (d_w d) (d_st d) (d_o d) = Some (d_st' d, d_r d, d_e d) ->
  slot (d_st d) FUdp j t -> s_open t = true -> keeps j d ->
  exists t' new, slot (d_st' d) FUdp j t' /\ brings j d new /\
    forall out, hands j d out -> subseq (out ++ map told (contents (s_rx t'))) (map told (contents (s_rx t) ++ new)) /\
      (roomy j d -> out ++ map told (contents (s_rx t')) = map told (contents (s_rx t) ++ new)).
Proof.
  destruct d as [w st o r e st']. cbn [d_w d_st d_o d_r d_e d_st']. intros HW HO G E SL OP KP.
  assert (QUIET : (exists t', slot st' FUdp j t' /\ s_rx t' = s_rx t) -> (forall l, hands j (mkD w st o r e st') l -> l = []) -> brings j (mkD w st o r e st') [] ->
    exists t' new, slot st' FUdp j t' /\ brings j (mkD w st o r e st') new /\
    forall out, hands j (mkD w st o r e st') out -> subseq (out ++ map told (contents (s_rx t'))) (map told (contents (s_rx t) ++ new)) /\
      (roomy j (mkD w st o r e st') -> out ++ map told (contents (s_rx t')) = map told (contents (s_rx t) ++ new))).
  { intros (t' & S' & ER) NH NB. exists t', []. split; [assumption|]. split; [assumption|]. intros out HH. rewrite (NH out HH), ER, app_nil_r. cbn [app]. split; [apply subseq_refl|reflexivity]. }
  assert (QD : quiet_op o \/ ~ quiet_op o) by (destruct o; cbn [quiet_op]; tauto). destruct QD as [Q|NQ].
  - apply QUIET.
    + eapply quiet_rx; eassumption.
    + intros l H. unfold hands in H. cbn [d_o d_r] in H. destruct o; try exact H; contradiction.
    + exists t. split; [exact SL|]. cbn [d_o]. destruct o; try reflexivity; contradiction.
  - destruct o as [k|fd ip port fo ve|fd ip port|fd|fd s|fd to b rnd|fd blen|i f|i f|i f ins|jj|o]; cbn [quiet_op] in NQ; try (exfalso; apply NQ; exact I); clear NQ.
    + apply QUIET; [|intros l H; exact H|exists t; split; [exact SL|reflexivity]]. unfold keeps in KP. cbn [d_o d_st] in KP. cbn [ustep] in E. unfold close in E.
      destruct (decode_spec st fd) as [(x & D0 & _)|(k & i & D0 & D & R)]; rewrite D0 in E; [injection E as <- <- <-; exists t; auto|].
      assert (DI : i < zlen (socks st k)) by apply D. destruct k.
      * destruct (s_closed _); injection E as <- <- <-; exists t; (split; [|reflexivity]); exact SL.
      * assert (NJ : j <> i) by (intros ->; contradiction). destruct (s_open (sock_at (u_udp st) i)) eqn:OI.
        -- destruct (mcast_drop_all w st i 0 4) as [[st1 e1]|] eqn:E1; [|discriminate]. cbn [obind] in E. injection E as <- <- <-. cbn [socks] in DI.
           assert (TH : forall todo st k st1 e1, mcast_drop_all w st i k todo = Some (st1, e1) -> nth_error (u_udp st1) (Z.to_nat j) = nth_error (u_udp st) (Z.to_nat j)).
           { clear - NJ SL R. destruct SL as (J & _). assert (RP : forall st ifx g rec st1 e1, igmp_send_report w st ifx g rec = Some (st1, e1) -> u_udp st1 = u_udp st).
             { intros st0 ifx g rec st1 e1. unfold igmp_send_report. destruct (negb _); [intros X; injection X as <- _; reflexivity|]. destruct (nth_error _ _); [|intros X; injection X as <- _; reflexivity].
               destruct (_ =? 0); [intros X; injection X as <- _; reflexivity|]. destruct (igmp_frame _ _ _ _ _); [|discriminate]. cbn [obind]. destruct (_ <? _); intros X; injection X as <- _; reflexivity. }
             induction todo as [|todo IH]; intros st0 k st1 e1 X; cbn [mcast_drop_all] in X; [injection X as <- _; reflexivity|].
             destruct (nth k _ _) as [g ifx]. destruct (g =? 0); cbn [obind] in X.
             - destruct (mcast_drop_all w st0 i (S k) todo) as [[s2 e2]|] eqn:X2; [|discriminate]. cbn [obind] in X. injection X as <- _. eapply IH. exact X2.
             - destruct (mcast_drop w st0 i g ifx) as [[[s2 r2] e2]|] eqn:X1; [|discriminate]. cbn [obind] in X.
               destruct (mcast_drop_all w s2 i (S k) todo) as [[s3 e3]|] eqn:X2; [|discriminate]. cbn [obind] in X. injection X as <- _. rewrite (IH _ _ _ _ X2).
               clear - X1 NJ J R RP. unfold mcast_drop in X1. destruct (_ || _); [injection X1 as <- _ _; reflexivity|]. destruct (find_join _ _ _) as [sl|]; [|injection X1 as <- _ _; reflexivity].
               assert (U : forall t, nth_error (upd (u_udp st0) i t) (Z.to_nat j) = nth_error (u_udp st0) (Z.to_nat j)) by (intros t0; apply upd_other; lia).
               cbn [u_mc with_udp] in X1. destruct (find_mship _ _ _ _) as [n|]; [|injection X1 as <- _ _; apply U]. destruct (_ =? 0).
               + destruct (igmp_send_report _ _ _ _ _) as [[s3 e3]|] eqn:X3; [|discriminate]. cbn [obind] in X1. injection X1 as <- _ _. cbn [u_udp with_mc]. rewrite (RP _ _ _ _ _ _ X3). apply U.
               + injection X1 as <- _ _. apply U. }
           exists t. split; [|reflexivity]. destruct SL as (J & N). split; [assumption|]. cbn [socks u_udp with_udp] in *. rewrite upd_other by lia. rewrite (TH _ _ _ _ _ E1). assumption.
        -- cbn [obind] in E. injection E as <- <- <-. exists t. split; [|reflexivity]. destruct SL as (J & N). split; [assumption|]. cbn [socks u_udp with_udp] in *. rewrite upd_other by lia. assumption.
      * injection E as <- <- <-. exists t. split; [|reflexivity]. exact SL.
    + cbn [ustep] in E. unfold recvfrom in E. destruct (decode_spec st fd) as [(x & D0 & _ & ND)|(k & i & D0 & D & R)]; rewrite D0 in E.
      { cbn [obind] in E. injection E as <- <- <-. apply QUIET; [exists t; auto|intros l H; exact H|exists t; split; [exact SL|reflexivity]]. }
      assert (DI : i < zlen (socks st k)) by apply D. destruct k; cbn [obind socks] in *.
      * injection E as <- <- <-. apply QUIET; [exists t; auto|intros l H; exact H|exists t; split; [exact SL|reflexivity]].
      * destruct (recv_udp_spec (sock_at (u_udp st) i) blen (slot_at st FUdp i G ltac:(cbn [socks]; lia))) as (t1 & q & E1 & S & C & EV). rewrite E1 in E. cbn [obind] in E. injection E as <- <- <-.
        destruct (Z.eq_dec j i) as [-> |NE].
        -- destruct SL as (J & N). cbn [socks] in N. assert (Et : sock_at (u_udp st) i = t) by (apply sock_at_in; assumption). rewrite Et in EV. exists t1, [].
           split; [split; [assumption|]; cbn [socks u_udp with_udp]; unfold upd; apply set_nth_same; apply nth_error_Some; congruence|].
           split; [exists t; split; [split; assumption|reflexivity]|]. intros out HH. unfold hands, roomy in *. cbn [d_o d_r d_st] in *. rewrite app_nil_r. destruct (contents (s_rx t)) as [|f l].
           ++ destruct EV as (-> & ->). rewrite HH. cbn. split; [constructor|reflexivity].
           ++ destruct EV as (-> & B1 & B2). destruct (Z_le_gt_dec (zlen (payload f)) blen) as [L|L].
              ** rewrite (B1 L) in HH. destruct HH as [(_ & ->)|(ND & _)]; [|contradiction]. cbn [app map]. unfold told at 2 4. split; [apply sub_take; apply subseq_refl|reflexivity].
              ** rewrite (B2 ltac:(lia)) in HH |- *. rewrite HH. cbn [app map]. split; [constructor; apply subseq_refl|]. intros X. exfalso. apply X; [exact D|reflexivity].
        -- apply QUIET.
           ++ exists t. split; [|reflexivity]. destruct SL as (J & N). split; [assumption|]. cbn [socks u_udp with_udp] in *. rewrite upd_other by lia. assumption.
           ++ intros l H. unfold hands in H. cbn [d_o d_r d_st] in H. destruct q; try exact H. destruct H as [(D2 & _)|(_ & ->)]; [|reflexivity]. exfalso. apply NE. eapply designates_fun; eassumption.
           ++ exists t. split; [exact SL|reflexivity].
      * destruct (recv_icmp_spec (sock_at (u_icmp st) i) blen (slot_at st FIcmp i G ltac:(cbn [socks]; lia))) as (t1 & q & E1 & S & C & EV). rewrite E1 in E. cbn [obind] in E. injection E as <- <- <-.
        apply QUIET; [exists t; split; [exact SL|reflexivity]| |exists t; split; [exact SL|reflexivity]]. intros l H. unfold hands in H. cbn [d_o d_r d_st] in H. destruct q; try exact H. destruct H as [(D2 & _)|(_ & ->)]; [|reflexivity].
        exfalso. destruct D as (_ & _ & _ & D), D2 as (_ & _ & _ & D2). destruct D as (_ & D & _), D2 as (_ & D2). congruence.
    + cbn [ustep op_in] in *. destruct HO as (F & I & Z9). destruct (udp_recv_spec w st i f HW G I F (fr69 f Z9)) as (st2 & e2 & E2 & _ & _ & _ & _ & FA & _). rewrite E2 in E. cbn [obind] in E. injection E as <- <- <-.
      destruct SL as (J & N). cbn [socks] in N. destruct (F2_nth _ _ _ FA _ _ N) as (t' & N' & C). destruct C as [(V & FR & WN & HD)|(NW & ->)].
      * exists t', [f]. split; [split; assumption|]. split; [exists t; split; [split; assumption|]; cbn [d_o d_w]; left; split; [repeat (split; [assumption|]); assumption|reflexivity]|].
        intros out HH. unfold hands in HH. cbn [d_o] in HH. rewrite HH. cbn [app]. destruct HD as (_ & EQ & _). apply enqueued_sub in EQ as (EQ & EQ2). split; [apply subseq_map; exact EQ|].
        unfold roomy. cbn [d_o d_st d_w]. intros RO. destruct (RO t ltac:(split; assumption) ltac:(repeat (split; [assumption|]); assumption)) as (R1 & R2). rewrite (EQ2 R1 R2). reflexivity.
      * apply QUIET; [exists t; split; [split; assumption|reflexivity]|intros l H; exact H|exists t; split; [split; assumption|]; cbn [d_o d_w]; right; split; [exact NW|reflexivity]].
    + cbn [ustep op_in] in *. destruct (flush_spec w o st HW HO G) as (st2 & e2 & p0 & p1 & p2 & p3 & E2 & _ & ET & _ & G2 & _ & EM & FU & _). rewrite E2 in E. cbn [obind] in E. injection E as <- <- <-.
      destruct SL as (J & N). cbn [socks] in N. destruct (FU _ _ N) as (t' & N' & FD & _). destruct (fed_brings _ _ _ _ FD) as (l & S1 & F1 & S2 & X).
      rewrite tags_snd in S1, X by (destruct G as (_ & GU & _); unfold zlen in GU; lia). exists t', l. split; [split; assumption|]. split.
      * exists t. split; [split; assumption|]. cbn [d_o d_e d_w]. split; [|exact F1]. rewrite ET, app_assoc, map_app. rewrite <- (app_nil_r l). apply subseq_app; [exact S1|apply subseq_nil].
      * intros out HH. unfold hands in HH. cbn [d_o] in HH. rewrite HH. cbn [app]. split; [apply subseq_map; exact S2|]. unfold roomy. cbn [d_o d_e]. intros RO.
        destruct X as (-> & ->); [|rewrite app_nil_r; reflexivity]. intros f Hf. apply RO. rewrite ET, app_assoc, map_app. apply in_or_app. left. assumption.
Qed.
Lemma change_open w st o r k j t t' : change w st o r k j t t' -> (s_open t' = s_open t) \/ (s_open t = false /\ s_open t' = true /\ o = OSocket k /\ r = RZ (fd_of k j)) \/
  (exists fd, o = OClose fd /\ designates st fd k j /\ t' = sock0).
Proof. intros C. destruct C; subst; eauto 6; left; try (match goal with H : steady _ _ |- _ => apply H end); assumption. Qed.
Lemma stays_open j d t : uworld_ok (d_w d) -> op_in (d_w d) (d_o d) -> Good (d_st d) -> ustep (d_w d) (d_st d) (d_o d) = Some (d_st' d, d_r d, d_e d) ->
  slot (d_st d) FUdp j t -> s_open t = true -> keeps j d -> forall t', slot (d_st' d) FUdp j t' -> s_open t' = true.
Proof.
  intros HW HO G E SL OP KP t' S'. destruct (ustep_table _ _ _ _ _ _ HW HO G E FUdp j t SL) as (t2 & S2 & C). assert (t' = t2) by (destruct S' as (_ & A), S2 as (_ & B); congruence). subst t2.
  apply change_open in C as [-> |[(X & _)|(fd & O & D & _)]]; [assumption|congruence|]. unfold keeps in KP. rewrite O in KP. contradiction.
Qed.
Lemma stream j : forall tr st st' t got, Good st -> trace st tr st' -> slot st FUdp j t -> s_open t = true -> Forall (keeps j) tr -> collects (hands j) tr got ->
  exists t' arr, slot st' FUdp j t' /\ collects (brings j) tr arr /\ subseq (got ++ map told (contents (s_rx t'))) (map told (contents (s_rx t) ++ arr)) /\
    (Forall (roomy j) tr -> got ++ map told (contents (s_rx t')) = map told (contents (s_rx t) ++ arr)).
Proof.
  induction tr as [|d tr IH]; intros st st' t got G TR SL OP KP CO.
  - inversion TR; subst. inversion CO; subst. exists t, []. split; [assumption|]. split; [constructor|]. rewrite app_nil_r. split; [apply subseq_refl|reflexivity].
  - inversion TR as [|w s0 o r e st1 tr0 st2 HW HO E TR2]; subst. inversion CO as [|d0 tr0 out got2 HH CO2]; subst. inversion KP as [|d0 tr0 K1 K2]; subst.
    set (d := mkD w st o r e st1) in *. destruct (rx_step j d t HW HO G E SL OP K1) as (t1 & new & S1 & BR & REL). destruct (REL out HH) as (R1 & R2).
    pose proof (stays_open j d t HW HO G E SL OP K1 t1 S1) as O1. pose proof (ustep_good _ _ _ _ _ _ HW HO G E) as G1.
    destruct (IH st1 st' t1 got2 G1 TR2 S1 O1 K2 CO2) as (t' & arr & S' & CB & Q1 & Q2). exists t', (new ++ arr). split; [assumption|]. split; [constructor; assumption|].
    rewrite !map_app in *. split.
    + rewrite <- app_assoc. eapply subseq_trans; [apply subseq_app; [apply subseq_refl|exact Q1]|]. rewrite !app_assoc. apply subseq_app; [exact R1|apply subseq_refl].
    + intros RO. inversion RO as [|d0 tr0 RO1 RO2]; subst. rewrite <- app_assoc, (Q2 RO2), !app_assoc. f_equal. apply R2. exact RO1.
Qed.
