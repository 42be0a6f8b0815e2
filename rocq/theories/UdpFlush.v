(** The transmit flush: frames leave in the order they were queued. *)
From Verif Require Import Base ListUtil Checksum ChecksumProps Route RouteProps Arp HttpUrl Fifo Forward ForwardSpec ForwardProofs ForwardStep Udp UdpFifo UdpSpec UdpFrames UdpInv UdpOps.

Lemma calm_refl t : calm t t.
Proof. unfold calm. repeat (split; [reflexivity|]). reflexivity. Qed.
Lemma calm_trans a b c : calm a b -> calm b c -> calm a c.
Proof.
  unfold calm. intros (A1 & A2 & A3 & A4 & A5 & A6 & A7 & A8 & A9 & A10 & A11 & A12 & A13 & A14) (B1 & B2 & B3 & B4 & B5 & B6 & B7 & B8 & B9 & B10 & B11 & B12 & B13 & B14).
  repeat (split; [congruence|]). congruence.
Qed.
Lemma same_attr_calm a b : same_attr a b -> calm a b.
Proof. unfold same_attr, calm. tauto. Qed.
Lemma calm_wants w i f a b : calm a b -> wants w i f b -> wants w i f a.
Proof. unfold calm, wants, joined. intros (A1 & A2 & A3 & A4 & A5 & A6 & A7 & A8 & A9 & _). rewrite A3, A5, A6, A7, A8, A9. tauto. Qed.
Lemma calm_sym a b : calm a b -> calm b a.
Proof. unfold calm. intuition congruence. Qed.
Lemma fed_pre w es a b c : calm a b -> s_rx b = s_rx a -> s_ttl b = s_ttl a -> fed w es b c -> fed w es a c.
Proof.
  intros C R T F. destruct F as [b c C2 R2 T2|bb i g es b t1 c [C2 L] F].
  - constructor; [eapply calm_trans; eassumption|congruence|congruence].
  - econstructor; [|exact F]. split; [eapply calm_trans; eassumption|]. destruct L as [(L1 & L2 & L3 & L4 & L5 & L6 & L7)|(L1 & L2 & L3)].
    + left. repeat (split; [assumption|]). split; [eapply calm_wants; eassumption|]. rewrite <- R. auto.
    + right. split; [|split; congruence]. intros (X1 & X2 & X3 & X4 & X5). apply L1. repeat (split; [assumption|]). eapply calm_wants; [apply calm_sym|]; eassumption.
Qed.
Lemma fed_app w a b : forall es es' c, fed w es a b -> fed w es' b c -> fed w (es ++ es') a c.
Proof.
  intros es es' c F. revert es' c. induction F as [t t' C R T|bb i g es t t1 t' L F IH]; intros es' c G.
  - cbn [app]. eapply fed_pre; eassumption.
  - cbn [app]. econstructor; [exact L|]. apply IH. assumption.
Qed.
Lemma fed_calm w es a b : fed w es a b -> calm a b.
Proof. induction 1 as [|bb i g es t t1 t' [L _] F IH]; [assumption|eapply calm_trans; eassumption]. Qed.

Definition tab (udp : bool) (st : ust) : list sock := if udp then u_udp st else u_icmp st.
Definition put (udp : bool) (st : ust) (i : Z) (t : sock) : ust := if udp then with_udp st (upd (u_udp st) i t) else with_icmp st (upd (u_icmp st) i t).
Definition rxk (udp : bool) : list Z -> Prop := if udp then rx_udp else rx_icmp.
Lemma Good_tab udp st : Good st -> zlen (tab udp st) = 2 /\ Forall (SI (rxk udp)) (tab udp st).
Proof. intros (G1 & G2 & G3 & G4 & G5 & _). destruct udp; split; assumption. Qed.
Lemma Good_put udp st i t : Good st -> SI (rxk udp) t -> Good (put udp st i t).
Proof.
  intros (G1 & G2 & G3 & G4 & G5 & G6 & G7) S. destruct udp; (split; [assumption|]).
  - split; [cbn [u_udp put with_udp]; rewrite upd_len; assumption|]. split; [apply upd_Forall; assumption|]. repeat (split; [assumption|]). assumption.
  - split; [assumption|]. split; [assumption|]. split; [cbn [u_icmp put with_icmp]; rewrite upd_len; assumption|]. split; [apply upd_Forall; assumption|]. split; assumption.
Qed.
Lemma tab_put udp st i t : tab udp (put udp st i t) = upd (tab udp st) i t.
Proof. destruct udp; reflexivity. Qed.

(** [p] was transmitted for slot [i]. *)
Definition Sent (w : world) (udp : bool) (i : Z) (p : list (Z * list Z)) (st st' : ust) : Prop :=
  Good st' /\ u_tcp st' = u_tcp st /\ u_mc st' = u_mc st /\ tab (negb udp) st' = tab (negb udp) st /\
  forall j t, nth_error (tab udp st) j = Some t -> exists t', nth_error (tab udp st') j = Some t' /\
    fed w (if udp then tag (sock_at (tab udp st) i) p else []) t t' /\ (j <> Z.to_nat i -> s_tx t' = s_tx t) /\
    (j = Z.to_nat i -> Forall2 carries (map snd p ++ contents (s_tx t')) (contents (s_tx t))).

Lemma carries_refl f : carries f f.
Proof. split; reflexivity. Qed.
Lemma carries_trans a b c : carries a b -> carries b c -> carries a c.
Proof. intros [A1 A2] [B1 B2]. split; congruence. Qed.
Lemma carries_all l : Forall2 carries l l.
Proof. apply F2_refl. intros. apply carries_refl. Qed.
Lemma F2_trans {A} (R : A -> A -> Prop) : (forall a b c, R a b -> R b c -> R a c) -> forall l1 l2 l3, Forall2 R l1 l2 -> Forall2 R l2 l3 -> Forall2 R l1 l3.
Proof.
  intros T l1 l2 l3 F. revert l3. induction F as [|a b l l' H F IH]; intros l3 G; inversion G; subst; constructor; [eapply T; eassumption|apply IH; assumption].
Qed.

(** Replacing one slot's transmit buffer. *)
Lemma Sent_put w udp st i t q : Good st -> 0 <= i < zlen (tab udp st) -> t = sock_at (tab udp st) i -> SI (rxk udp) (set_tx q t) ->
  Forall2 carries (contents q) (contents (s_tx t)) -> Sent w udp i [] st (put udp st i (set_tx q t)).
Proof.
  intros G Hi Et S C. split; [apply Good_put; assumption|]. split; [destruct udp; reflexivity|]. split; [destruct udp; reflexivity|]. split; [destruct udp; reflexivity|].
  intros j u Hu. rewrite tab_put. unfold upd. rewrite set_nth_nth_error. cbn [tag map]. replace (if udp then [] else []) with (@nil (bool * (Z * list Z))) by (destruct udp; reflexivity).
  destruct (Nat.eqb_spec (Z.to_nat i) j) as [<- | NJ].
  - destruct (Nat.ltb_spec (Z.to_nat i) (length (tab udp st))); [|unfold zlen in Hi; lia].
    assert (u = t) by (rewrite Et; rewrite (at_some _ _ Hi) in Hu; congruence). subst u. eexists. split; [reflexivity|].
    split; [apply fed_nil; [unfold calm; repeat (split; [reflexivity|]); reflexivity|reflexivity|reflexivity]|]. split; [congruence|]. intros _. exact C.
  - exists u. split; [assumption|]. split; [apply fed_nil; [apply calm_refl|reflexivity|reflexivity]|]. split; [reflexivity|congruence].
Qed.
Lemma Sent_trans w udp i p p' a b c : 0 <= i < zlen (tab udp a) -> Sent w udp i p a b -> Sent w udp i p' b c -> Sent w udp i (p ++ p') a c.
Proof.
  intros Hi (G1 & T1 & M1 & O1 & S1) (G2 & T2 & M2 & O2 & S2). split; [assumption|]. split; [congruence|]. split; [congruence|]. split; [congruence|].
  intros j t Ht. destruct (S1 j t Ht) as (t1 & N1 & F1 & X1 & C1). destruct (S2 j t1 N1) as (t2 & N2 & F2 & X2 & C2).
  destruct (S1 _ _ (at_some _ _ Hi)) as (ti & Ni & Fi & _).
  exists t2. split; [assumption|]. split.
  - destruct udp; [|exact (fed_app w _ _ [] [] _ F1 F2)]. unfold tag. rewrite map_app. eapply fed_app; [exact F1|].
    assert (E : s_mloop (sock_at (tab true b) i) = s_mloop (sock_at (tab true a) i)).
    { rewrite (sock_at_in (tab true b) i ti) by (assumption || lia). apply fed_calm in Fi. apply Fi. }
    unfold tag in F2. rewrite E in F2. exact F2.
  - split; [intros N; rewrite X2, X1 by assumption; reflexivity|]. intros E. specialize (C1 E). specialize (C2 E). rewrite map_app, <- app_assoc.
    eapply F2_trans; [exact carries_trans| |exact C1]. apply Forall2_app; [apply carries_all|exact C2].
Qed.

(** ** One frame *)
Definition link (w : world) (ifx : Z) (f mac : list Z) : list Z :=
  match nth_error (w_ifs w) (Z.to_nat ifx) with Some x => if i_noneth x then f else mac ++ i_mac x ++ be16 2048 ++ skipn 14 f | None => f end.
Lemma skipn_zget (f : list Z) k : 0 <= k -> zget (skipn 14 f) k = zget f (14 + k).
Proof.
  intros H. unfold zget. replace (Z.to_nat (14 + k)) with (14 + Z.to_nat k)%nat by lia. generalize (Z.to_nat k) as n. generalize 14%nat as m.
  intros m. revert f. induction m as [|m IH]; intros f n; [reflexivity|]. destruct f as [|x f]; [destruct n; reflexivity|]. cbn [skipn plus nth]. apply IH.
Qed.
Lemma link_spec w ifx f mac : world_ok w -> tx_ok f -> zlen mac = 6 -> Forall byte mac ->
  carries (link w ifx f mac) f /\ tx_ok (link w ifx f mac) /\ (forall k, 14 <= k -> zget (link w ifx f mac) k = zget f k) /\ (forall x, nth_error (w_ifs w) (Z.to_nat ifx) = Some x -> i_noneth x = false -> part (link w ifx f mac) 0 6 = mac /\ part (link w ifx f mac) 6 6 = i_mac x /\ word (link w ifx f mac) 12 = 2048).
Proof.
  intros (W1 & _) T LM BM. pose proof T as ((TB & TL) & T2 & T3). unfold link. destruct (nth_error (w_ifs w) (Z.to_nat ifx)) as [x|] eqn:N.
  2:{ split; [apply carries_refl|]. split; [assumption|]. split; [reflexivity|]. discriminate. }
  assert (XO : iface_ok x) by (rewrite Forall_forall in W1; apply W1; eapply nth_error_In; exact N). destruct XO as (X1 & X2 & _).
  destruct (i_noneth x) eqn:NE.
  { split; [apply carries_refl|]. split; [assumption|]. split; [reflexivity|]. intros y Hy. injection Hy as <-. congruence. }
  set (e := mac ++ i_mac x ++ be16 2048). assert (LE : zlen e = 14) by (unfold e; rewrite !zlen_app, LM, X1; reflexivity).
  replace (mac ++ i_mac x ++ be16 2048 ++ skipn 14 f) with (e ++ skipn 14 f) by (unfold e; rewrite <- !app_assoc; reflexivity).
  assert (LS : zlen (skipn 14 f) = zlen f - 14) by (unfold zlen in *; rewrite skipn_length; lia).
  assert (LG : zlen (e ++ skipn 14 f) = zlen f) by (rewrite zlen_app; lia).
  assert (ZG : forall k, 14 <= k -> zget (e ++ skipn 14 f) k = zget f k).
  { intros k K. rewrite zget_app2 by lia. rewrite skipn_zget by lia. f_equal. lia. }
  assert (BE : Forall byte e) by (unfold e; repeat apply Forall_app2; [assumption|assumption|apply bytes_lit; reflexivity]).
  split; [split; [assumption|]|].
  { rewrite skipn_app. rewrite skipn_all2 by (unfold zlen in LE; lia). replace (14 - length e)%nat with 0%nat by (unfold zlen in LE; lia). reflexivity. }
  split; [split; [split; [|lia]|split; [lia|rewrite ZG by lia; assumption]]|].
  { apply Forall_app2; [assumption|]. apply Forall_forall. intros z Hz. rewrite Forall_forall in TB. apply TB. rewrite <- (firstn_skipn 14 f). apply in_or_app. right. assumption. }
  split; [exact ZG|]. intros y Hy _. injection Hy as <-. split; [|split].
  - rewrite part_app_l by lia. unfold e. rewrite part_app_l by lia. apply part_all. lia.
  - rewrite part_app_l by lia. unfold e. rewrite part_app_r by lia. rewrite LM. rewrite part_app_l by lia. apply part_all. lia.
  - transitivity (word (be16 2048) 0); [|reflexivity]. apply word_ext. intros j J. rewrite zget_app1 by lia. unfold e. rewrite zget_app2 by lia. rewrite zget_app2 by lia. f_equal. lia.
Qed.
Lemma dst_same f g : (forall k, 14 <= k -> zget g k = zget f k) -> dst g = dst f.
Proof. intros H. unfold dst. apply addr_ext. intros j J. apply H. lia. Qed.
Lemma group_mac f : Forall byte f ->
  [1; 0; 94; Z.land (Z.shiftr (dst f) 16) 127; Z.land (Z.shiftr (dst f) 8) 255; Z.land (dst f) 255] = [1; 0; 94; zget f 31 mod 128; zget f 32; zget f 33].
Proof.
  intros HB. pose proof (zget_byte f 30 HB) as B0. pose proof (zget_byte f 31 HB) as B1. pose proof (zget_byte f 32 HB) as B2. pose proof (zget_byte f 33 HB) as B3. unfold byte in *.
  unfold dst, addr, word. change (30 + 1) with 31. change (30 + 2 + 1) with 33. change (30 + 2) with 32.
  change 127 with (Z.ones 7). change 255 with (Z.ones 8). rewrite !Z.land_ones by lia. rewrite !Z.shiftr_div_pow2 by lia.
  change (2 ^ 7) with 128. change (2 ^ 8) with 256. change (2 ^ 16) with 65536.
  repeat (f_equal; try (Z.div_mod_to_equations; lia)).
Qed.
Lemma tx_route_range w udp t d : uworld_ok w -> ranges t -> addr32 d -> nth_error (w_ifs w) (Z.to_nat (fst (tx_route w udp t d))) <> None -> 0 <= fst (tx_route w udp t d) < zlen (w_ifs w).
Proof.
  intros ((W1 & W2 & W3 & W4) & _) R D NN. assert (0 <= fst (tx_route w udp t d)).
  { unfold tx_route in *. destruct (udp && ip_is_multicast d && s_mifset t); [apply R|].
    destruct (w_confs w) as [|c0 cs0] eqn:CN.
    { assert (w_ifs w = []) as WE by (unfold w_confs in CN; destruct (w_ifs w); [reflexivity|discriminate]). rewrite WE in NN.
      exfalso. apply NN. apply nth_error_None. cbn [length]. lia. }
    rewrite <- CN in *. assert (NE : w_confs w <> []) by congruence.
    assert (FC : Forall conf_ok (w_confs w)). { apply Forall_forall. intros c Hc. apply in_map_iff in Hc as (x & <- & Hx). rewrite Forall_forall in W1. apply (W1 x Hx). }
    assert (LC : zlen (w_confs w) = zlen (w_ifs w)) by apply zlen_confs.
    destruct (route_lookup_longest_prefix (w_lb w) (w_confs w) (w_routes w) d NE FC) as (i & nh & E2 & R2 & _); [rewrite LC; assumption|assumption|].
    rewrite E2. cbn [fst]. lia. }
  apply nth_error_Some in NN. unfold zlen. lia.
Qed.

(** What the multicast loopback does to the UDP sockets. *)
Definition loops (w : world) (b : bool) (ifx : Z) (g : list Z) (t t' : sock) : Prop := looped w b ifx g t t' /\ s_tx t' = s_tx t.
Lemma loop_spec w st ifx g (b : bool) : uworld_ok w -> Good st -> 0 <= ifx < zlen (w_ifs w) -> tx_ok g ->
  exists st', (if ip_is_multicast (dst g) && b then udp_recv w st ifx g else Some (st, [])) = Some (st', []) /\ Good st' /\
    u_tcp st' = u_tcp st /\ u_icmp st' = u_icmp st /\ u_mc st' = u_mc st /\ Forall2 (loops w b ifx g) (u_udp st) (u_udp st').
Proof.
  intros HW HG HI T. pose proof T as (TF & T2 & T3). pose proof TF as (TB & TL).
  pose proof (multicast_iff (dst g) ltac:(apply addr_range; assumption)) as MI.
  destruct (ip_is_multicast (dst g)) eqn:M; cbn [andb].
  - destruct b.
    + destruct (udp_recv_spec w st ifx g HW HG HI TF) as (st' & e & E & G' & E1 & E2 & E3 & F & EV & _); [intros _; assumption|].
      assert (e = []) as ->.
      { destruct EV as [->|(x & _ & _ & _ & _ & U & _)]; [reflexivity|]. exfalso. destruct U as (_ & _ & _ & _ & U & _). apply U, MI. reflexivity. }
      exists st'. rewrite E. split; [reflexivity|]. split; [assumption|]. repeat (split; [assumption|]).
      eapply F2_imp; [exact F|]. intros x y _ [(V & W & X & (A & Q & TT))|(N & ->)].
      * split; [|apply A]. split; [apply same_attr_calm; assumption|]. left. split; [reflexivity|]. split; [apply MI; reflexivity|]. auto.
      * split; [|reflexivity]. split; [apply calm_refl|]. right. split; [|auto]. intros (_ & _ & V & W & X). apply N. auto.
    + exists st. split; [reflexivity|]. split; [assumption|]. repeat (split; [reflexivity|]). apply F2_refl. intros x _. split; [|reflexivity].
      split; [apply calm_refl|]. right. split; [|auto]. intros (Q & _). discriminate.
  - exists st. split; [reflexivity|]. split; [assumption|]. repeat (split; [reflexivity|]). apply F2_refl. intros x _. split; [|reflexivity].
    split; [apply calm_refl|]. right. split; [|auto]. intros (_ & Q & _). apply MI in Q. discriminate.
Qed.
Lemma F2_nth {A B} (R : A -> B -> Prop) l l' : Forall2 R l l' -> forall j x, nth_error l j = Some x -> exists y, nth_error l' j = Some y /\ R x y.
Proof.
  induction 1 as [|a b l l' H F IH]; intros j x Hx; [destruct j; discriminate|]. destruct j; [injection Hx as <-; exists b; auto|]. apply IH. assumption.
Qed.

(** Transmitting the head of the queue. *)
Lemma Sent_pop w udp st i ifx g l : uworld_ok w -> Good st -> 0 <= i < zlen (tab udp st) -> 0 <= ifx < zlen (w_ifs w) ->
  contents (s_tx (sock_at (tab udp st) i)) = g :: l -> tx_ok g ->
  (exists q2 p, fifo_pop (s_tx (sock_at (tab udp st) i)) = Some (q2, p) /\ fq (s_open (sock_at (tab udp st) i)) TXBUF q2 l) ->
  exists st2, (if udp && ip_is_multicast (dst g) && s_mloop (sock_at (tab udp st) i) then udp_recv w st ifx g else Some (st, [])) = Some (st2, []) /\
    exists q2 p, fifo_pop (s_tx (sock_at (tab udp st2) i)) = Some (q2, p) /\ contents q2 = l /\
    Sent w udp i [(ifx, g)] st (put udp st2 i (set_tx q2 (sock_at (tab udp st2) i))).
Proof.
  intros HW HG Hi HX HC T (q2 & p & EP & FP). set (t := sock_at (tab udp st) i) in *.
  assert (exists st2, (if udp && ip_is_multicast (dst g) && s_mloop t then udp_recv w st ifx g else Some (st, [])) = Some (st2, []) /\ Good st2 /\
     u_tcp st2 = u_tcp st /\ tab (negb udp) st2 = tab (negb udp) st /\ u_mc st2 = u_mc st /\
     Forall2 (fun x y => fed w (if udp then tag t [(ifx, g)] else []) x y /\ s_tx y = s_tx x) (tab udp st) (tab udp st2)) as (st2 & E2 & G2 & ET & EO & EM & F2).
  { destruct udp; cbn [andb].
    - destruct (loop_spec w st ifx g (s_mloop t) HW HG HX T) as (st2 & E2 & G2 & E3 & E4 & E5 & F). exists st2. split; [exact E2|]. split; [assumption|].
      split; [assumption|]. split; [assumption|]. split; [assumption|]. eapply F2_imp; [exact F|]. intros x y _ [L X]. split; [|assumption].
      cbn [tag map]. eapply fed_cons; [exact L|]. apply fed_nil; [apply calm_refl|reflexivity|reflexivity].
    - exists st. split; [reflexivity|]. split; [assumption|]. repeat (split; [reflexivity|]). apply F2_refl. intros x _. split; [|reflexivity]. apply fed_nil; [apply calm_refl|reflexivity|reflexivity]. }
  exists st2. split; [exact E2|].
  destruct (F2_nth _ _ _ F2 _ _ (at_some _ _ Hi)) as (t2 & N2 & FD & X2). fold t in FD, X2.
  assert (ET2 : sock_at (tab udp st2) i = t2) by (apply sock_at_in; [lia|assumption]). rewrite ET2.
  exists q2, p. split; [rewrite X2; exact EP|]. destruct (fq_con _ _ _ _ FP) as (FP' & EC). split; [exact EC|].
  destruct (Good_tab udp st2 G2) as (L2 & A2). assert (Hi2 : 0 <= i < zlen (tab udp st2)) by (rewrite L2; destruct (Good_tab udp st HG) as (L1 & _); lia).
  assert (S2 : SI (rxk udp) t2) by (rewrite <- ET2; apply at_Forall; assumption).
  assert (OP : s_open t2 = s_open t) by (apply fed_calm in FD; apply FD).
  assert (FT : Forall tx_ok l).
  { destruct (Good_tab udp st HG) as (_ & A1). assert (S1 : SI (rxk udp) t) by (apply at_Forall; assumption). destruct S1 as (_ & _ & _ & FT & _). rewrite HC in FT. inversion FT. assumption. }
  split; [apply Good_put; [assumption|]; eapply SI_tx; [exact S2| |exact FT]; rewrite OP; assumption|].
  split; [destruct udp; exact ET|]. split; [destruct udp; exact EM|]. split; [destruct udp; exact EO|].
  intros j x Hx. destruct (F2_nth _ _ _ F2 _ _ Hx) as (y & Ny & Fy & Xy). rewrite tab_put. unfold upd. rewrite set_nth_nth_error.
  destruct (Nat.eqb_spec (Z.to_nat i) j) as [<- | NJ].
  - destruct (Nat.ltb_spec (Z.to_nat i) (length (tab udp st2))); [|unfold zlen in Hi2; lia]. eexists. split; [reflexivity|].
    assert (y = t2) as -> by congruence. assert (x = t) as -> by (rewrite (at_some _ _ Hi) in Hx; unfold t; congruence).
    split. { assert (FN : fed w [] t2 (set_tx q2 t2)); [|pose proof (fed_app w _ _ _ _ _ FD FN) as FF; rewrite app_nil_r in FF; exact FF].
      apply fed_nil; [unfold calm; repeat (split; [reflexivity|]); reflexivity|reflexivity|reflexivity]. }
    split; [congruence|]. intros _. cbn [map snd app s_tx set_tx]. rewrite EC, HC. apply carries_all.
  - exists y. split; [assumption|]. split; [exact Fy|]. split; [intros _; assumption|congruence].
Qed.

Definition macs_ok (o : oracle) : Prop := forall k m, o_mac o k = Some m -> zlen m = 6 /\ Forall byte m.
Lemma tx_mac_spec w udp ifx nh f o k mac : world_ok w -> macs_ok o -> Forall byte f -> tx_mac w udp ifx nh (dst f) (o_mac o k) = inl mac ->
  zlen mac = 6 /\ Forall byte mac /\
  (forall x, nth_error (w_ifs w) (Z.to_nat ifx) = Some x -> i_noneth x = false ->
    (is_loop w ifx /\ mac = i_mac x) \/ (broadcast w nh /\ mac = repeat 255 6) \/
    (multicast (dst f) /\ mac = [1; 0; 94; zget f 31 mod 128; zget f 32; zget f 33]) \/ known o mac).
Proof.
  intros (W1 & _) MO HB. unfold tx_mac, is_loopback_if. destruct (w_lb w && (ifx =? 0)) eqn:LB.
  { assert (IL : is_loop w ifx) by (apply andb_true_iff in LB as [LB1 LB2]; split; [assumption|lia]). destruct (nth_error (w_ifs w) (Z.to_nat ifx)) as [x|] eqn:N; intros E; injection E as <-.
    - rewrite Forall_forall in W1. destruct (W1 x (nth_error_In _ _ N)) as (X1 & X2 & _). split; [assumption|]. split; [assumption|]. intros y Hy _. injection Hy as <-. auto.
    - split; [reflexivity|]. split; [apply bytes_lit; reflexivity|]. discriminate. }
  unfold is_noneth. destruct (match nth_error (w_ifs w) (Z.to_nat ifx) with Some x => i_noneth x | None => false end) eqn:NE.
  { intros E. injection E as <-. split; [reflexivity|]. split; [apply bytes_lit; reflexivity|]. intros x Hx. rewrite Hx in NE. congruence. }
  destruct (ip_is_broadcast (w_confs w) nh) eqn:BC.
  { intros E. injection E as <-. split; [reflexivity|]. split; [apply bytes_lit; reflexivity|]. intros x _ _. right. left. split; [apply broadcast_iff; assumption|reflexivity]. }
  destruct (udp && ip_is_multicast (dst f)) eqn:MC.
  { rewrite group_mac by assumption. intros E. injection E as <-.
    pose proof (zget_byte f 31 HB) as B1. pose proof (zget_byte f 32 HB) as B2. pose proof (zget_byte f 33 HB) as B3. split; [reflexivity|].
    split; [unfold byte in *; repeat constructor; unfold byte; try lia; pose proof (Z.mod_pos_bound (zget f 31) 128); lia|].
    intros x _ _. right. right. left. split; [|reflexivity]. apply multicast_iff; [apply addr_range; assumption|]. destruct udp; [assumption|discriminate]. }
  destruct (o_mac o k) as [m|] eqn:OM; [|discriminate]. intros E. injection E as <-. destruct (MO _ _ OM). split; [assumption|]. split; [assumption|].
  intros x _ _. right. right. right. exists k. assumption.
Qed.

Lemma tx_route_there w udp t d : uworld_ok w -> ranges t -> addr32 d -> w_ifs w <> [] -> (s_mifset t = true -> s_mif t < zlen (w_ifs w)) ->
  nth_error (w_ifs w) (Z.to_nat (fst (tx_route w udp t d))) <> None.
Proof.
  intros ((W1 & W2 & W3 & W4) & _) R D NE MF. apply nth_error_Some. unfold tx_route. assert (RM : 0 <= s_mif t) by apply R. destruct (udp && ip_is_multicast d) eqn:Q; cbn [andb].
  - destruct (s_mifset t); [specialize (MF eq_refl); cbn [fst]; unfold zlen in MF; lia|].
    assert (NC : w_confs w <> []) by (unfold w_confs; destruct (w_ifs w); [congruence|discriminate]).
    assert (FC : Forall conf_ok (w_confs w)). { apply Forall_forall. intros c Hc. apply in_map_iff in Hc as (x & <- & Hx). rewrite Forall_forall in W1. apply (W1 x Hx). }
    pose proof (zlen_confs w) as LC.
    destruct (route_lookup_longest_prefix (w_lb w) (w_confs w) (w_routes w) d NC FC) as (i & nh & E2 & R2 & _); [rewrite LC; assumption|assumption|].
    rewrite E2. cbn [fst]. unfold zlen in *. lia.
  - assert (NC : w_confs w <> []) by (unfold w_confs; destruct (w_ifs w); [congruence|discriminate]).
    assert (FC : Forall conf_ok (w_confs w)). { apply Forall_forall. intros c Hc. apply in_map_iff in Hc as (x & <- & Hx). rewrite Forall_forall in W1. apply (W1 x Hx). }
    pose proof (zlen_confs w) as LC.
    destruct (route_lookup_longest_prefix (w_lb w) (w_confs w) (w_routes w) d NC FC) as (i & nh & E2 & R2 & _); [rewrite LC; assumption|assumption|].
    rewrite E2. cbn [fst]. unfold zlen in *. lia.
Qed.

Definition queued (udp : bool) (st : ust) (i : Z) : list (list Z) := contents (s_tx (sock_at (tab udp st) i)).

Lemma flush_one_spec w udp st i q pos d l fl tm o k : uworld_ok w -> macs_ok o -> Good st -> 0 <= i < zlen (tab udp st) ->
  s_tx (sock_at (tab udp st) i) = q -> contents q = d :: l ->
  load_entry q pos = Some {| en_flags := fl; en_time := tm; en_data := d |} ->
  (forall d2, zlen d2 = zlen d -> exists f3, fifo_update q pos fl tm d2 = Some f3 /\ fq (s_open (sock_at (tab udp st) i)) TXBUF f3 (d2 :: l) /\
       (exists f4, fifo_pop f3 = Some (f4, Some pos) /\ fq (s_open (sock_at (tab udp st) i)) TXBUF f4 l)) ->
  exists st' go e, flush_one w udp st i pos o k = Some (st', go, e) /\ quiet e /\
    Sent w udp i (transmitted e) st st' /\ Forall (fun x => on_wire w (known o) (fst x) (snd x)) (transmitted e) /\
    (go = true -> queued udp st' i = l) /\ (open_road w o (sock_at (tab udp st) i) -> go = true).
Proof.
  intros HW MO HG Hi Eq EC LE UP. pose proof HW as (HW' & _). pose proof (Good_tab udp st HG) as (GL & GA).
  set (t := sock_at (tab udp st) i) in *. assert (S : SI (rxk udp) t) by (apply at_Forall; assumption).
  assert (FT : Forall tx_ok (d :: l)) by (rewrite <- EC, <- Eq; apply S). inversion FT as [|? ? T FTl]. subst x l0.
  assert (RG : ranges t) by apply S. assert (DB : Forall byte d) by apply T. assert (AD : addr32 (dst d)) by (apply addr_range; assumption).
  assert (SAME : Sent w udp i [] st st).
  { split; [assumption|]. repeat (split; [reflexivity|]). intros j x Hx. exists x. split; [assumption|].
    split; [cbn [tag map]; replace (if udp then [] else []) with (@nil (bool * (Z * list Z))) by (destruct udp; reflexivity); apply fed_nil; [apply calm_refl|reflexivity|reflexivity]|].
    split; [reflexivity|]. intros _. apply carries_all. }
  unfold flush_one. change (if udp then u_udp st else u_icmp st) with (tab udp st). fold t. rewrite Eq, LE. cbn [obind en_data en_flags en_time].
  rewrite rd32_addr. fold (dst d).
  pose proof (tx_route_range w udp t (dst d) HW RG AD) as RR. pose proof (tx_route_there w udp t (dst d) HW RG AD) as RT.
  destruct (tx_route w udp t (dst d)) as [ifx nh] eqn:ER. cbn [fst] in RR, RT.
  destruct (tx_mac w udp ifx nh (dst d) (o_mac o k)) as [mac|] eqn:EM.
  2:{ exists st, false, [UArpReq ifx nh]. split; [reflexivity|]. split; [constructor; [exact I|constructor]|]. split; [exact SAME|]. split; [constructor|]. split; [discriminate|].
      intros (O1 & _). exfalso. unfold tx_mac in EM. destruct (is_loopback_if _ _); [discriminate|]. destruct (is_noneth _ _); [discriminate|]. destruct (ip_is_broadcast _ _); [discriminate|].
      destruct (udp && _); [discriminate|]. specialize (O1 k). destruct (o_mac o k); [discriminate|congruence]. }
  destruct (tx_mac_spec w udp ifx nh d o k mac HW' MO DB EM) as (LM & BM & OM).
  fold (link w ifx d mac). destruct (link_spec w ifx d mac HW' T LM BM) as (CG & TG & ZG & LG). set (g := link w ifx d mac) in *.
  destruct (UP g) as (f3 & EU & F3 & f4 & E4 & F4); [apply CG|]. rewrite EU. cbn [obind].
  assert (ER2 : (if udp then with_udp st (upd (u_udp st) i (set_tx f3 t)) else with_icmp st (upd (u_icmp st) i (set_tx f3 t))) = put udp st i (set_tx f3 t)) by (destruct udp; reflexivity).
  rewrite ER2. clear ER2. set (st1 := put udp st i (set_tx f3 t)). destruct (fq_con _ _ _ _ F3) as (F3' & C3).
  assert (S1 : Sent w udp i [] st st1).
  { apply Sent_put; [assumption|assumption|reflexivity| |].
    - eapply SI_tx; [exact S|exact F3|]. constructor; [exact TG|assumption].
    - rewrite C3. rewrite Eq, EC. constructor; [exact CG|apply carries_all]. }
  assert (FIN : forall st' e, Sent w udp i [] st st' -> quiet e -> transmitted e = [] -> ~ open_road w o t ->
     exists st'' go e', Some (st', false, e) = Some (st'', go, e') /\ quiet e' /\ Sent w udp i (transmitted e') st st'' /\ Forall (fun x => on_wire w (known o) (fst x) (snd x)) (transmitted e') /\
       (go = true -> queued udp st'' i = l) /\ (open_road w o t -> go = true)).
  { intros st' e A B C D. exists st', false, e. split; [reflexivity|]. rewrite C. split; [assumption|]. split; [assumption|]. split; [constructor|]. split; [discriminate|]. intros X. exfalso. auto. }
  destruct (w_fsend w ifx g) eqn:FS.
  { apply FIN; [assumption|constructor|reflexivity|]. intros (_ & _ & O3 & _). rewrite O3 in FS. discriminate. }
  destruct (nth_error (w_ifs w) (Z.to_nat ifx)) as [x|] eqn:NX.
  2:{ apply FIN; [assumption|constructor|reflexivity|]. intros (_ & _ & _ & O4 & O5 & _). apply (RT O4 O5). reflexivity. }
  destruct (w_mtu w ifx <? zlen g) eqn:ML.
  { apply FIN; [assumption|constructor|reflexivity|]. intros (_ & _ & _ & _ & _ & O6). rewrite Eq in O6. specialize (O6 ifx d). rewrite EC in O6. specialize (O6 (or_introl eq_refl)). destruct CG as [CG _]. lia. }
  destruct (o_drv o k) eqn:DR; cbn [negb orb].
  2:{ apply FIN; [assumption|constructor|reflexivity|]. intros (_ & O2 & _). rewrite O2 in DR. discriminate. }
  pose proof (Good_put udp st i (set_tx f3 t) HG) as G1. destruct S1 as (G1' & S1'). assert (Hi1 : 0 <= i < zlen (tab udp st1)) by (unfold st1; rewrite tab_put, upd_len; assumption).
  assert (AT1 : sock_at (tab udp st1) i = set_tx f3 t) by (unfold st1; rewrite tab_put; apply upd_at; assumption).
  assert (HX : 0 <= ifx < zlen (w_ifs w)) by (apply RR; discriminate).
  change (if udp then u_udp st1 else u_icmp st1) with (tab udp st1). rewrite AT1. cbn [s_mloop set_tx].
  destruct (Sent_pop w udp st1 i ifx g l HW G1' Hi1 HX) as (st2 & E2 & q2 & p2 & EP & C2 & S2).
  { rewrite AT1. cbn [s_tx set_tx]. exact C3. }
  { exact TG. }
  { rewrite AT1. exists f4, (Some pos). split; [exact E4|exact F4]. }
  rewrite AT1 in E2. cbn [s_mloop set_tx] in E2. rewrite <- (dst_same d g ZG). rewrite E2. cbn [obind].
  change (if udp then u_udp st2 else u_icmp st2) with (tab udp st2). rewrite EP. cbn [obind].
  assert (ER2 : (if udp then with_udp st2 (upd (u_udp st2) i (set_tx q2 (sock_at (tab udp st2) i))) else with_icmp st2 (upd (u_icmp st2) i (set_tx q2 (sock_at (tab udp st2) i)))) = put udp st2 i (set_tx q2 (sock_at (tab udp st2) i))) by (destruct udp; reflexivity).
  rewrite ER2. clear ER2. eexists _, true, _. split; [reflexivity|]. split; [repeat constructor|]. cbn [transmitted].
  pose proof (Sent_trans w udp i [] [(ifx, g)] st st1 _ Hi (conj G1' S1') S2) as ST. cbn [app] in ST. split; [exact ST|].
  split.
  { constructor; [|constructor]. cbn [fst snd]. exists x. split; [assumption|]. split; [lia|]. split; [assumption|]. intros NE.
    destruct (LG x eq_refl NE) as (L1 & L2 & L3). split; [assumption|]. split; [assumption|]. rewrite L1. rewrite (dst_same d g ZG), !ZG by lia.
    destruct (OM x eq_refl NE) as [OM1|[(OM1 & OM2)|[OM1|OM1]]]; [left; exact OM1|right; left; split; [exists nh; assumption|assumption]|right; right; left; exact OM1|right; right; right; exact OM1]. }
  split; [intros _|reflexivity]. unfold queued. rewrite tab_put.
  assert (Hi2 : 0 <= i < zlen (tab udp st2)). { destruct S2 as (G3 & _). pose proof (Good_tab udp _ G3) as (L3 & _). rewrite tab_put, upd_len in L3. lia. }
  rewrite upd_at by assumption. exact C2.
Qed.

Lemma transmitted_app a b : transmitted (a ++ b) = transmitted a ++ transmitted b.
Proof. induction a as [|x a IH]; [reflexivity|]. destruct x; cbn [app transmitted]; rewrite IH; reflexivity. Qed.
Lemma Sent_self w udp i st : Good st -> Sent w udp i [] st st.
Proof.
  intros HG. split; [assumption|]. repeat (split; [reflexivity|]). intros j x Hx. exists x. split; [assumption|].
  split; [cbn [tag map]; replace (if udp then [] else []) with (@nil (bool * (Z * list Z))) by (destruct udp; reflexivity); apply fed_nil; [apply calm_refl|reflexivity|reflexivity]|].
  split; [reflexivity|]. intros _. apply carries_all.
Qed.
Lemma Sent_at w udp i p st st' : 0 <= i < zlen (tab udp st) -> Sent w udp i p st st' ->
  calm (sock_at (tab udp st) i) (sock_at (tab udp st') i) /\ Forall2 carries (map snd p ++ queued udp st' i) (queued udp st i).
Proof.
  intros Hi (G & _ & _ & _ & S). destruct (S _ _ (at_some _ _ Hi)) as (t' & N & F & _ & C). unfold queued. rewrite (sock_at_in (tab udp st') i t') by (assumption || lia).
  split; [exact (fed_calm _ _ _ _ F)|]. apply C. reflexivity.
Qed.
Lemma open_road_less w o t t' p : calm t t' -> Forall2 carries (p ++ contents (s_tx t')) (contents (s_tx t)) -> open_road w o t -> open_road w o t'.
Proof.
  intros C F (O1 & O2 & O3 & O4 & O5 & O6). repeat (split; [assumption|]). split.
  - destruct C as (_ & _ & _ & _ & _ & _ & _ & _ & _ & _ & _ & -> & -> & _). assumption.
  - intros i f Hf. assert (Hin : In f (p ++ contents (s_tx t'))) by (apply in_or_app; auto). clear -F Hin O6.
    induction F as [|a b la lb [H _] F IH]; [destruct Hin|]. destruct Hin as [<- | Hin].
    + rewrite H. apply O6. left. reflexivity.
    + apply IH; [|assumption]. intros j g Hg. apply O6. right. assumption.
Qed.

Lemma flush_sock_spec w udp i o : uworld_ok w -> macs_ok o -> 0 <= i < 2 -> forall fuel st k, Good st -> (length (queued udp st i) < fuel)%nat ->
  exists st' k' e, flush_sock fuel w udp st i o k = Some (st', k', e) /\ quiet e /\ Sent w udp i (transmitted e) st st' /\
    Forall (fun x => on_wire w (known o) (fst x) (snd x)) (transmitted e) /\ (open_road w o (sock_at (tab udp st) i) -> queued udp st' i = []).
Proof.
  intros HW MO HI. induction fuel as [|fuel IH]; intros st k HG HF; [lia|]. pose proof (Good_tab udp st HG) as (GL & GA).
  assert (Hi : 0 <= i < zlen (tab udp st)) by lia. cbn [flush_sock]. change (if udp then u_udp st else u_icmp st) with (tab udp st).
  unfold queued in HF. set (t := sock_at (tab udp st) i) in *. assert (S : SI (rxk udp) t) by (apply at_Forall; assumption).
  pose proof S as (_ & _ & Q & FT & _). destruct (fq_peek _ _ _ _ Q) as (q & p & EP & QQ & CS). rewrite EP.
  assert (ER : (if udp then with_udp st (upd (u_udp st) i (set_tx q t)) else with_icmp st (upd (u_icmp st) i (set_tx q t))) = put udp st i (set_tx q t)) by (destruct udp; reflexivity).
  rewrite ER. clear ER. set (st1 := put udp st i (set_tx q t)). destruct (fq_con _ _ _ _ QQ) as (QQ' & CQ).
  assert (S1 : Sent w udp i [] st st1).
  { apply Sent_put; [assumption|assumption|reflexivity|eapply SI_tx; [exact S|exact QQ|exact FT]|]. rewrite CQ. apply carries_all. }
  assert (AT1 : sock_at (tab udp st1) i = set_tx q t) by (unfold st1; rewrite tab_put; apply upd_at; assumption).
  destruct CS as [(CE & ->)|(pos & d & l & fl & tm & CE & -> & _ & _ & _ & LE & _ & _ & UP)].
  - exists st1, k, []. split; [reflexivity|]. split; [constructor|]. split; [exact S1|]. split; [constructor|]. intros _. unfold queued. rewrite AT1. cbn [s_tx set_tx]. congruence.
  - assert (G1 : Good st1) by apply S1. assert (Hi1 : 0 <= i < zlen (tab udp st1)) by (unfold st1; rewrite tab_put, upd_len; assumption).
    destruct (flush_one_spec w udp st1 i q pos d l fl tm o k HW MO G1 Hi1) as (st2 & go & e & E2 & Q2 & S2 & O2 & GO & LV); [rewrite AT1; reflexivity|congruence|exact LE|rewrite AT1; exact UP|].
    rewrite E2. cbn [obind]. pose proof (Sent_trans w udp i [] _ _ _ _ Hi S1 S2) as S12. cbn [app] in S12.
    assert (OR : open_road w o t -> open_road w o (set_tx q t)).
    { intros R. destruct (Sent_at w udp i [] st st1 Hi S1) as (C1 & F1). unfold queued in F1. rewrite AT1 in C1, F1. exact (open_road_less w o _ _ [] C1 F1 R). }
    rewrite AT1 in LV. destruct go.
    + specialize (GO eq_refl). assert (G2 : Good st2) by apply S2. destruct (IH st2 (Datatypes.S k) G2) as (st3 & k3 & e3 & E3 & Q3 & S3 & O3 & L3).
      { rewrite GO. fold (queued udp st i) in *. rewrite CE in HF. cbn [length] in HF. lia. }
      rewrite E3. cbn [obind]. exists st3, k3, (e ++ e3). split; [reflexivity|]. split; [apply Forall_app2; assumption|]. rewrite transmitted_app.
      split; [exact (Sent_trans w udp i _ _ _ _ _ Hi S12 S3)|]. split; [apply Forall_app2; assumption|]. intros R. apply L3.
      destruct (Sent_at w udp i _ st st2 Hi S12) as (C1 & F1). exact (open_road_less w o _ _ _ C1 F1 R).
    + exists st2, (Datatypes.S k), e. split; [reflexivity|]. split; [assumption|]. split; [exact S12|]. split; [assumption|]. intros R. discriminate (LV (OR R)).
Qed.
Lemma queue_bound udp st i : Good st -> 0 <= i < 2 -> (length (queued udp st i) < 2051)%nat.
Proof.
  intros HG HI. pose proof (Good_tab udp st HG) as (GL & GA). assert (S : SI (rxk udp) (sock_at (tab udp st) i)) by (apply at_Forall; [assumption|lia]).
  destruct S as (_ & _ & Q & _). unfold queued. destruct (s_open (sock_at (tab udp st) i)).
  - apply fq_count in Q. unfold TXBUF in Q. unfold zlen in Q. lia.
  - destruct Q as [_ Q]. rewrite Q. cbn [length]. lia.
Qed.

Lemma flush_two w udp o : uworld_ok w -> macs_ok o -> forall st k, Good st ->
  exists st' k' e p0 p1, flush_all w udp st 0 2 o k = Some (st', k', e) /\ quiet e /\ transmitted e = p0 ++ p1 /\
    Forall (fun x => on_wire w (known o) (fst x) (snd x)) (p0 ++ p1) /\
    Good st' /\ u_tcp st' = u_tcp st /\ u_mc st' = u_mc st /\ tab (negb udp) st' = tab (negb udp) st /\
    (forall j t, nth_error (tab udp st) j = Some t -> exists t', nth_error (tab udp st') j = Some t' /\
       fed w (if udp then tags (tab udp st) [p0; p1] else []) t t' /\
       Forall2 carries (map snd (nth j [p0; p1] []) ++ contents (s_tx t')) (contents (s_tx t)) /\
       (open_road w o t -> contents (s_tx t') = [])).
Proof.
  intros HW MO st k HG. cbn [flush_all].
  destruct (flush_sock_spec w udp 0 o HW MO ltac:(lia) 2051 st k HG (queue_bound udp st 0 HG ltac:(lia))) as (st1 & k1 & e1 & E1 & Q1 & S1 & O1 & L1).
  assert (G1 : Good st1) by apply S1. rewrite E1. cbn [obind]. change (0 + 1) with 1.
  destruct (flush_sock_spec w udp 1 o HW MO ltac:(lia) 2051 st1 k1 G1 (queue_bound udp st1 1 G1 ltac:(lia))) as (st2 & k2 & e2 & E2 & Q2 & S2 & O2 & L2).
  rewrite E2. cbn [obind]. pose proof (Good_tab udp st HG) as (GL & _). pose proof (Good_tab udp st1 G1) as (GL1 & _).
  exists st2, k2, (e1 ++ e2 ++ []), (transmitted e1), (transmitted e2). rewrite app_nil_r. split; [reflexivity|]. split; [apply Forall_app2; assumption|]. split; [apply transmitted_app|].
  split; [apply Forall_app2; assumption|]. destruct S1 as (_ & T1 & M1 & N1 & F1). destruct S2 as (G2 & T2 & M2 & N2 & F2). split; [assumption|].
  split; [congruence|]. split; [congruence|]. split; [congruence|]. intros j t Ht. destruct (F1 j t Ht) as (t1 & Nt1 & Fd1 & X1 & C1). destruct (F2 j t1 Nt1) as (t2 & Nt2 & Fd2 & X2 & C2).
  exists t2. split; [assumption|].
  assert (TG : tags (tab udp st) [transmitted e1; transmitted e2] = tag (sock_at (tab udp st) 0) (transmitted e1) ++ tag (sock_at (tab udp st) 1) (transmitted e2)).
  { unfold tags, sock_at. destruct (tab udp st) as [|a [|b [|c r]]]; try (unfold zlen in GL; cbn [length] in GL; lia). cbn [combine map concat fst snd Z.to_nat nth]. rewrite app_nil_r. reflexivity. }
  assert (ML : s_mloop (sock_at (tab udp st1) 1) = s_mloop (sock_at (tab udp st) 1)).
  { destruct (F1 _ _ (at_some (tab udp st) 1 ltac:(lia))) as (x & Nx & Fx & _). rewrite (sock_at_in (tab udp st1) 1 x) by (assumption || lia). apply fed_calm in Fx. apply Fx. }
  assert (TB : tag (sock_at (tab udp st1) 1) (transmitted e2) = tag (sock_at (tab udp st) 1) (transmitted e2)) by (unfold tag; rewrite ML; reflexivity).
  assert (CM : calm t t1) by exact (fed_calm _ _ _ _ Fd1). assert (CM2 : calm t1 t2) by exact (fed_calm _ _ _ _ Fd2). split.
  { destruct udp; [rewrite TG; rewrite TB in Fd2; eapply fed_app; eassumption|exact (fed_app w _ _ [] [] _ Fd1 Fd2)]. }
  assert (HJ : j = 0%nat \/ j = 1%nat) by (assert (j < length (tab udp st))%nat by (apply nth_error_Some; congruence); unfold zlen in GL; lia).
  change (Z.to_nat 0) with 0%nat in *. change (Z.to_nat 1) with 1%nat in *. destruct HJ as [-> | ->]; cbn [nth].
  - specialize (C1 eq_refl). rewrite X2 by discriminate. split; [exact C1|]. intros R.
    unfold queued in L1. rewrite (sock_at_in (tab udp st) 0 t) in L1 by (assumption || lia). rewrite (sock_at_in (tab udp st1) 0 t1) in L1 by (assumption || lia). exact (L1 R).
  - specialize (C2 eq_refl). assert (XX : s_tx t1 = s_tx t) by (apply X1; discriminate). rewrite XX in C2. split; [exact C2|]. intros R.
    unfold queued in L2. rewrite (sock_at_in (tab udp st1) 1 t1) in L2 by (assumption || lia). rewrite (sock_at_in (tab udp st2) 1 t2) in L2 by (assumption || lia). apply L2.
    apply (open_road_less w o t t1 []); [assumption|rewrite XX; apply carries_all|assumption].
Qed.

Lemma flush_spec w o st : uworld_ok w -> macs_ok o -> Good st ->
  exists st' e p0 p1 p2 p3, flush w st o = Some (st', e) /\ quiet e /\ transmitted e = p0 ++ p1 ++ p2 ++ p3 /\
    Forall (fun x => on_wire w (known o) (fst x) (snd x)) (transmitted e) /\ Good st' /\ u_tcp st' = u_tcp st /\ u_mc st' = u_mc st /\
    (forall j t, nth_error (u_udp st) j = Some t -> exists t', nth_error (u_udp st') j = Some t' /\
       fed w (tags (u_udp st) [p0; p1]) t t' /\ Forall2 carries (map snd (nth j [p0; p1] []) ++ contents (s_tx t')) (contents (s_tx t)) /\
       (open_road w o t -> contents (s_tx t') = [])) /\
    (forall j t, nth_error (u_icmp st) j = Some t -> exists t', nth_error (u_icmp st') j = Some t' /\
       calm t t' /\ s_rx t' = s_rx t /\ s_ttl t' = s_ttl t /\ Forall2 carries (map snd (nth j [p2; p3] []) ++ contents (s_tx t')) (contents (s_tx t)) /\
       (open_road w o t -> contents (s_tx t') = [])).
Proof.
  intros HW MO HG. unfold flush. pose proof (Good_tab true st HG) as (GU & _). pose proof (Good_tab false st HG) as (GI & _). cbn [tab] in GU, GI.
  replace (length (u_udp st)) with 2%nat by (unfold zlen in GU; lia).
  destruct (flush_two w true o HW MO st 0%nat HG) as (st1 & k1 & e1 & p0 & p1 & E1 & Q1 & T1 & O1 & G1 & TC1 & MC1 & N1 & F1). rewrite E1. cbn [obind].
  cbn [tab negb] in N1. rewrite N1. replace (length (u_icmp st)) with 2%nat by (unfold zlen in GI; lia).
  destruct (flush_two w false o HW MO st1 k1 G1) as (st2 & k2 & e2 & p2 & p3 & E2 & Q2 & T2 & O2 & G2 & TC2 & MC2 & N2 & F2). rewrite E2. cbn [obind].
  cbn [tab negb] in N2, F1, F2. exists st2, (e1 ++ e2), p0, p1, p2, p3. split; [reflexivity|]. split; [apply Forall_app2; assumption|].
  rewrite transmitted_app, T1, T2. split; [rewrite <- app_assoc; reflexivity|]. split; [apply Forall_app2; assumption|]. split; [assumption|]. split; [congruence|]. split; [congruence|].
  rewrite N2. split; [exact F1|]. rewrite <- N1. intros j t Ht. destruct (F2 j t Ht) as (t' & Nt & Fd & C & L). exists t'. split; [assumption|].
  split; [exact (fed_calm _ _ _ _ Fd)|]. inversion Fd. split; [assumption|]. split; [assumption|]. split; assumption.
Qed.
