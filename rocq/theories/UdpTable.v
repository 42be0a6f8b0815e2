(** What each operation does to the socket table: who is open, and on which port and address. *)
From Verif Require Import Base ListUtil Checksum ChecksumProps Route RouteProps Arp HttpUrl Fifo Forward ForwardSpec ForwardProofs ForwardStep Udp UdpFifo UdpSpec UdpFrames UdpInv UdpOps UdpFlush UdpSafe UdpMcast UdpTotal UdpMember.

Definition steady (t t' : sock) : Prop := s_open t' = s_open t /\ s_src t' = s_src t /\ s_local t' = s_local t /\ s_bound t' = s_bound t.
Lemma steady_refl t : steady t t. Proof. repeat split. Qed.
(** connect() tests the UDP mark first, then ICMP. *)
Definition connects (st : ust) (fd : Z) (k : fam) (i : Z) : Prop :=
  0 <= fd /\ i = fd mod 256 /\ i < zlen (socks st k) /\
  match k with FTcp => False | FUdp => Z.testbit fd 9 = true | FIcmp => Z.testbit fd 9 = false /\ Z.testbit fd 10 = true end.
Definition free_port (l : list sock) (j : Z) (a p : Z) : Prop :=
  p = 0 \/ forall i u, nth_error l i = Some u -> i <> Z.to_nat j -> s_src u = p -> s_local u <> 0 /\ a <> 0 /\ s_local u <> a.

Inductive change (w : world) (st : ust) (o : uop) (r : res) (k : fam) (j : Z) (t : sock) : sock -> Prop :=
| ch_steady t' : steady t t' -> change w st o r k j t t'
| ch_open t' : o = OSocket k -> r = RZ (fd_of k j) -> s_open t = false -> t' = open_sock k t -> change w st o r k j t t'
| ch_bind fd ip port t' : o = OBind fd ip port true false -> r = RZ 0 -> designates st fd k j -> (k = FTcp \/ s_src t = 0) ->
    s_open t' = s_open t -> s_bound t' = ip -> (ip <> 0 -> s_local t' = ip /\ own w ip) -> s_src t' = port ->
    free_port (socks st k) j (s_local t') port -> change w st o r k j t t'
| ch_conn fd ip port t' : o = OConnect fd ip port -> connects st fd k j -> s_open t' = s_open t -> s_src t' = s_src t -> s_bound t' = s_bound t ->
    (s_bound t <> 0 -> s_local t' = s_bound t \/ s_local t' = s_local t) -> (k = FIcmp -> s_bound t = 0 -> s_local t <> 0 -> s_local t' = s_local t) -> change w st o r k j t t'
| ch_close fd t' : o = OClose fd -> r = RZ 0 -> designates st fd k j -> t' = sock0 -> change w st o r k j t t'
| ch_send fd to b rnd t' : o = OSend fd to b rnd -> designates st fd k j -> s_open t' = s_open t -> s_bound t' = s_bound t ->
    (s_src t <> 0 -> s_src t' = s_src t) -> (s_local t' = s_local t \/ s_local t = 0 \/ (s_bound t <> 0 /\ s_local t' = s_bound t)) -> change w st o r k j t t'.

(** Every slot of every family is still there, and changed as [change] says. *)
Definition table_step (w : world) (st : ust) (o : uop) (r : res) (st' : ust) : Prop :=
  forall k j t, slot st k j t -> exists t', slot st' k j t' /\ change w st o r k j t t'.

Lemma slot_in st k j t : slot st k j t -> 0 <= j < zlen (socks st k) /\ sock_at (socks st k) j = t.
Proof.
  intros (J & N). assert (Z.to_nat j < length (socks st k))%nat by (apply nth_error_Some; congruence).
  split; [unfold zlen; lia|]. apply sock_at_in; assumption.
Qed.
Lemma at_slot st k j : 0 <= j < zlen (socks st k) -> slot st k j (sock_at (socks st k) j).
Proof. intros H. split; [lia|]. apply at_some. assumption. Qed.
Lemma step_id w st o r : table_step w st o r st.
Proof. intros k j t H. exists t. split; [assumption|]. apply ch_steady, steady_refl. Qed.
Lemma socks_set st k l k' : socks (set_socks st k l) k' = if match k, k' with FTcp, FTcp | FUdp, FUdp | FIcmp, FIcmp => true | _, _ => false end then l else socks st k'.
Proof. destruct k, k'; reflexivity. Qed.
(** one slot replaced *)
Lemma step_put w st o r k i t' : 0 <= i < zlen (socks st k) -> change w st o r k i (sock_at (socks st k) i) t' ->
  table_step w st o r (set_socks st k (upd (socks st k) i t')).
Proof.
  intros I C k' j t (J & N).
  assert (D : {k' = k /\ j = i} + {~ (k' = k /\ j = i)}). { destruct (Z.eq_dec j i); [|right; tauto]. destruct k, k'; first [left; split; [reflexivity|assumption]|right; intros [X _]; discriminate X]. }
  destruct D as [(-> & ->)|NE].
  - assert (E : sock_at (socks st k) i = t) by (apply sock_at_in; assumption). rewrite E in C. exists t'. split; [|exact C].
    split; [assumption|]. rewrite socks_set. replace (match k, k with FTcp, FTcp | FUdp, FUdp | FIcmp, FIcmp => true | _, _ => false end) with true by (destruct k; reflexivity).
    unfold upd. apply set_nth_same. unfold zlen in I. lia.
  - exists t. split; [|apply ch_steady, steady_refl]. split; [assumption|]. rewrite socks_set. destruct k, k'; try exact N; rewrite upd_other; try exact N; try lia; intros X; apply NE; split; congruence || lia.
Qed.
Lemma step_id2 w st o r st' v : table_step w st o r st' -> table_step w st o r (with_id st' v).
Proof. intros H k j t S. destruct (H k j t S) as (t' & S' & C). exists t'. split; [|exact C]. destruct S' as (A & B). split; [exact A|]. destruct k; exact B. Qed.
Lemma step_lists w st o r st' : (forall t t', In t (u_tcp st) -> In t' (u_tcp st') -> True) ->
  Forall2 steady (u_tcp st) (u_tcp st') -> Forall2 steady (u_udp st) (u_udp st') -> Forall2 steady (u_icmp st) (u_icmp st') -> table_step w st o r st'.
Proof.
  intros _ A B C k j t (J & N). assert (F : Forall2 steady (socks st k) (socks st' k)) by (destruct k; assumption).
  destruct (F2_nth _ _ _ F _ _ N) as (t' & N' & S). exists t'. split; [split; assumption|]. apply ch_steady. exact S.
Qed.
Lemma steady_all l : Forall2 steady l l. Proof. apply F2_refl. intros; apply steady_refl. Qed.

Lemma port_in_use_spec self ip port : forall l i, port_in_use l i self ip port = false ->
  forall n u, nth_error l n = Some u -> i + Z.of_nat n <> self -> s_src u = port -> s_local u <> 0 /\ ip <> 0 /\ s_local u <> ip.
Proof.
  induction l as [|x l IH]; intros i H n u N NE P; [destruct n; discriminate|]. cbn [port_in_use] in H. apply orb_false_iff in H as [H1 H2].
  destruct n as [|n]; [|apply (IH (i + 1) H2 n u N); [lia|assumption]]. injection N as <-.
  destruct (Z.eqb_spec i self); [lia|]. destruct (Z.eqb_spec (s_src x) port); [|contradiction]. cbn [negb andb] in H1. apply negb_false_iff in H1.
  apply andb_true_iff in H1 as [H1 H3]. apply andb_true_iff in H1 as [H1 H4]. apply negb_true_iff in H1, H3, H4. apply Z.eqb_neq in H1, H3, H4. auto.
Qed.
Lemma bind_free l j a p : 0 <= j -> bind_port_in_use l j a p = false -> free_port l j a p.
Proof.
  intros J. unfold bind_port_in_use, free_port. destruct (Z.eqb_spec p 0); [auto|]. intros H. right. intros i u N NE P. apply (port_in_use_spec j a p l 0 H i u N); [lia|assumption].
Qed.
Lemma same_attr_steady a b : same_attr a b -> steady a b.
Proof. intros (A & _ & B & C & D & _). unfold steady. auto. Qed.
Lemma handed_steady t f t' : handed t f t' -> steady t t'.
Proof. intros (A & _). apply same_attr_steady. exact A. Qed.
Lemma calm_steady a b : calm a b -> steady a b.
Proof. intros (A & _ & B & C & D & _). unfold steady. auto. Qed.
Lemma kept_steady t t' : kept t t' -> steady t t'.
Proof. intros (A & _). apply same_attr_steady in A. exact A. Qed.
Lemma mc_steady t l : steady t (set_mc l t). Proof. repeat split. Qed.
Lemma joins_steady w st n g i st' e : 0 <= n -> joins w st n g i st' e -> u_tcp st' = u_tcp st /\ u_icmp st' = u_icmp st /\ Forall2 steady (u_udp st) (u_udp st').
Proof.
  intros N0 (s & j & x & m & m' & v & _ & _ & _ & _ & ->). cbn [u_tcp u_icmp u_udp]. repeat split. apply F2_of_nth; [unfold upd; apply set_nth_length|].
  intros a t Na. destruct (Nat.eq_dec a (Z.to_nat n)) as [-> | NE].
  - exists (set_mc (set_nth s (g, i) (s_mc (sock_at (u_udp st) n))) (sock_at (u_udp st) n)). split; [unfold upd; apply set_nth_same; apply nth_error_Some; congruence|]. rewrite (sock_at_in _ _ _ N0 Na). apply mc_steady.
  - exists t. split; [unfold upd; rewrite set_nth_other by congruence; exact Na|apply steady_refl].
Qed.
Lemma leaves_steady w st n g i s st' e : 0 <= n -> leaves w st n g i s st' e -> u_tcp st' = u_tcp st /\ u_icmp st' = u_icmp st /\ Forall2 steady (u_udp st) (u_udp st').
Proof.
  intros N0 (v & l & _ & _ & ->). cbn [u_tcp u_icmp u_udp]. repeat split. apply F2_of_nth; [unfold upd; apply set_nth_length|].
  intros a t Na. destruct (Nat.eq_dec a (Z.to_nat n)) as [-> | NE].
  - exists (set_mc (set_nth s (0, 0) (s_mc (sock_at (u_udp st) n))) (sock_at (u_udp st) n)). split; [unfold upd; apply set_nth_same; apply nth_error_Some; congruence|]. rewrite (sock_at_in _ _ _ N0 Na). apply mc_steady.
  - exists t. split; [unfold upd; rewrite set_nth_other by congruence; exact Na|apply steady_refl].
Qed.
Lemma steady_trans a b c : steady a b -> steady b c -> steady a c.
Proof. intros (A1 & A2 & A3 & A4) (B1 & B2 & B3 & B4). unfold steady. repeat split; congruence. Qed.
Lemma drop_all_steady w n : uworld_ok w -> 0 <= n < 2 -> forall todo st k st' e, Good st -> mcast_drop_all w st n k todo = Some (st', e) ->
  Good st' /\ u_tcp st' = u_tcp st /\ u_icmp st' = u_icmp st /\ Forall2 steady (u_udp st) (u_udp st').
Proof.
  intros HW HN. induction todo as [|todo IH]; intros st k st' e G E; cbn [mcast_drop_all] in E; [injection E as <- <-; repeat (split; [first [assumption|reflexivity]|]); apply steady_all|].
  destruct (nth k (s_mc (sock_at (u_udp st) n)) (0, 0)) as [g ifx] eqn:EN. destruct (Z.eqb_spec g 0) as [G0|G0]; cbn [obind] in E.
  - destruct (mcast_drop_all w st n (S k) todo) as [[st2 e2]|] eqn:E2; [|discriminate]. cbn [obind] in E. injection E as <- <-. exact (IH _ _ _ _ G E2).
  - assert (MC : addr32 g /\ 0 <= ifx).
    { pose proof (slot_at st FUdp n G ltac:(destruct G as (_ & X & _); cbn [socks]; lia)) as S. cbn [socks slot_ok] in S. destruct S as (_ & _ & _ & _ & (L & F) & _).
      rewrite Forall_forall in F. destruct (nth_in_or_default k (s_mc (sock_at (u_udp st) n)) (0, 0)) as [IN|DF]; [|rewrite DF in EN; injection EN as <- <-; contradiction].
      rewrite EN in IN. specialize (F _ IN). cbn in F. split; [apply F|lia]. }
    destruct MC as (AG & I0). destruct (drop_spec w st n g ifx HW G HN AG I0) as (st1 & r1 & e1 & E1 & C). rewrite E1 in E. cbn [obind] in E.
    destruct (mcast_drop_all w st1 n (S k) todo) as [[st2 e2]|] eqn:E2; [|discriminate]. cbn [obind] in E. injection E as <- <-.
    destruct C as [(_ & -> & _)|(_ & _ & _ & s & L)]; [exact (IH _ _ _ _ G E2)|].
    pose proof (leaves_good w st n g ifx s st1 e1 G HN AG L) as G1. pose proof (leaves_steady w st n g ifx s st1 e1 ltac:(lia) L) as (A1 & A2 & A3).
    destruct (IH _ _ _ _ G1 E2) as (B0 & B1 & B2 & B3). split; [assumption|]. split; [congruence|]. split; [congruence|]. eapply F2_trans; [apply steady_trans|eassumption|eassumption].
Qed.
Lemma set_socks_same st k l : socks (set_socks st k l) k = l. Proof. destruct k; reflexivity. Qed.
Lemma lor_add i k : 0 <= i < 256 -> Z.lor i (mark k) = fd_of k i.
Proof.
  intros H. unfold fd_of. rewrite Z.add_comm. assert (D : Z.land i (mark k) = 0).
  { destruct k; unfold mark, MARK_TCP, MARK_UDP, MARK_ICMP; [change 256 with (2 ^ 8)|change 512 with (2 ^ 9)|change 1024 with (2 ^ 10)];
    (apply Z.bits_inj'; intros n Hn; rewrite Z.land_spec, Z.bits_0, Z.pow2_bits_eqb by lia; destruct (Z.eqb_spec n n); [|lia]; match goal with |- _ && (?a =? n) = false => destruct (Z.eqb_spec a n) as [<- |] end; [|apply andb_false_r]; rewrite andb_true_r; apply Z.bits_above_log2; [lia|]; destruct (Z.eq_dec i 0) as [-> |]; [reflexivity|apply Z.log2_lt_pow2; lia]). }
  symmetry. rewrite <- Z.lxor_lor by exact D. apply Z.add_nocarry_lxor. exact D.
Qed.
Lemma sendto_icmp_local w id t to b rnd t' id' r : sendto_icmp w id t to b rnd = Some (t', id', r) ->
  s_local t' = s_local t \/ s_local t = 0 \/ (s_bound t <> 0 /\ s_local t' = s_bound t).
Proof.
  unfold sendto_icmp. set (t1 := match to with Some (ip, _) => set_peer ip (s_dst t) t | None => t end).
  assert (A1 : s_local t1 = s_local t /\ s_bound t1 = s_bound t) by (unfold t1; destruct to as [[? ?]|]; split; reflexivity). destruct A1 as (A1 & A2). clearbody t1.
  destruct (s_remote t1 =? 0); [intros E; injection E as <- _ _; auto|]. cbv zeta.
  set (t2 := if s_src t1 =? 0 then _ else t1). assert (B1 : s_local t2 = s_local t /\ s_bound t2 = s_bound t) by (unfold t2; destruct (s_src t1 =? 0); split; assumption). destruct B1 as (B1 & B2). clearbody t2.
  destruct (Z.eqb_spec (s_bound t2) 0) as [Z0|Z0]; cbn [negb].
  - cbn [s_local set_if]. set (t3 := if s_local t2 =? 0 then set_local _ _ else _).
    assert (C : s_local t3 = s_local t \/ s_local t = 0) by (unfold t3; destruct (Z.eqb_spec (s_local t2) 0); [right; lia|left; cbn [s_local set_if]; congruence]). clearbody t3.
    assert (C' : s_local t3 = s_local t \/ s_local t = 0 \/ s_bound t <> 0 /\ s_local t3 = s_bound t) by tauto.
    destruct (_ || _ || _); [intros E; injection E as <- _ _; exact C'|]. destruct (negb _); [intros E; injection E as <- _ _; exact C'|].
    destruct (if zget b 0 =? 8 then _ else _) as [b'|]; [|discriminate]. cbn [obind]. destruct (add_header _ _ _ _) as [f|]; [|discriminate]. cbn [obind].
    destruct (fifo_push _ _) as [[q rr]|]; [|discriminate]. cbn [obind]. intros E; injection E as <- _ _. exact C'.
  - destruct (if_for_local_ip w (s_bound t2)) as [ifx ok]. destruct ok; [|intros E; injection E as <- _ _; auto].
    assert (C' : s_bound t2 = s_local t \/ s_local t = 0 \/ s_bound t <> 0 /\ s_bound t2 = s_bound t) by (right; right; split; congruence).
    set (t3 := set_local (s_bound t2) (set_if (u8 ifx) t2)). change (s_bound t2) with (s_local t3) in C'. clearbody t3.
    destruct (_ || _ || _); [intros E; injection E as <- _ _; exact C'|]. destruct (negb _); [intros E; injection E as <- _ _; exact C'|].
    destruct (if zget b 0 =? 8 then _ else _) as [b'|]; [|discriminate]. cbn [obind]. destruct (add_header _ _ _ _) as [f|]; [|discriminate]. cbn [obind].
    destruct (fifo_push _ _) as [[q rr]|]; [|discriminate]. cbn [obind]. intros E; injection E as <- _ _. exact C'.
Qed.
Lemma set_put_udp st i t : with_udp st (upd (u_udp st) i t) = set_socks st FUdp (upd (socks st FUdp) i t). Proof. reflexivity. Qed.
Lemma set_put_icmp st i t : with_icmp st (upd (u_icmp st) i t) = set_socks st FIcmp (upd (socks st FIcmp) i t). Proof. reflexivity. Qed.
Theorem ustep_table w st o st' r e : uworld_ok w -> op_in w o -> Good st -> ustep w st o = Some (st', r, e) -> table_step w st o r st'.
Proof.
  intros HW HO G E. pose proof G as (GT & GU & _ & GI & _). destruct o as [k|fd ip port fo ve|fd ip port|fd|fd s|fd to b rnd|fd blen|i f|i f|i f ins|j|o]; cbn [ustep op_in] in *.
  - unfold socket in E. pose proof (free_slot_spec (socks st k) 0) as F. destruct (free_slot (socks st k) 0) as [i|]; injection E as <- <- <-; [|apply step_id].
    destruct F as (R & (t & Nt & Ot) & _). rewrite Z.sub_0_r in Nt. assert (R' : 0 <= i < zlen (socks st k)) by lia. assert (Et : sock_at (socks st k) i = t) by (apply sock_at_in; [lia|assumption]).
    apply step_put; [exact R'|]. rewrite Et. apply ch_open; [reflexivity| |assumption|reflexivity]. rewrite lor_add; [reflexivity|]. destruct k; cbn [socks] in R'; lia.
  - destruct HO as (A & P). unfold bind in E. destruct (fd <? 0); [injection E as <- <- <-; apply step_id|].
    destruct (negb (ip =? 0) && negb (snd (if_for_local_ip w ip))) eqn:OW; [injection E as <- <- <-; apply step_id|].
    destruct (decode_spec st fd) as [(x & D0 & _)|(k & i & D0 & D & R)]; rewrite D0 in E; [injection E as <- <- <-; apply step_id|].
    destruct (bind_sock w k (socks st k) i (sock_at (socks st k) i) ip port fo ve) as [t q] eqn:B. injection E as <- <- <-.
    assert (DI : i < zlen (socks st k)) by apply D. apply step_put; [lia|].
    unfold bind_sock in B. destruct (if_for_local_ip w ip) as [ifx ok] eqn:EI.
    destruct (match k with FTcp => _ | _ => _ end) eqn:ST; [injection B as <- <-; apply ch_steady, steady_refl|]. destruct fo; cbn [negb] in B; [|injection B as <- <-; apply ch_steady, steady_refl]. cbv zeta in B.
    match type of B with context [bind_port_in_use (socks st k) i ?e port] => set (loc := e) in * end. destruct (bind_port_in_use (socks st k) i loc port) eqn:IU; [injection B as <- <-; apply ch_steady; repeat split|].
    destruct ve; [injection B as <- <-; apply ch_steady; repeat split|]. injection B as <- <-.
    eapply ch_bind; [reflexivity|reflexivity|exact D| |reflexivity|reflexivity| |reflexivity|].
    + destruct k; [left; reflexivity|right|right]; apply negb_false_iff, Z.eqb_eq in ST; exact ST.
    + intros N0. cbn [set_bound set_src set_local set_if s_local]. split; [unfold loc; destruct (Z.eqb_spec ip 0); [contradiction|reflexivity]|].
      apply own_if. rewrite EI. destruct (Z.eqb_spec ip 0); [contradiction|]. cbn in OW. cbn [snd]. destruct ok; [reflexivity|discriminate].
    + cbn [set_bound set_src set_local set_if s_local]. apply bind_free; [lia|exact IU].
  - destruct HO as (A & P). unfold connect in E. pose proof (unmark_range fd) as UR. destruct (Z.ltb_spec fd 0); [injection E as <- <- <-; apply step_id|]. rewrite udp_bit in E. rewrite icmp_bit in E.
    destruct (Z.testbit fd 9) eqn:B9.
    + destruct (Z.leb_spec (zlen (u_udp st)) (unmark fd)) as [|L]; [injection E as <- <- <-; apply step_id|]. set (t := sock_at (u_udp st) (unmark fd)) in *.
      destruct (connect_udp w t ip port) as [t' q] eqn:C. injection E as <- <- <-. rewrite set_put_udp. apply step_put; [cbn [socks]; lia|]. cbn [socks]. fold t.
      assert (CN : connects st fd FUdp (unmark fd)) by (unfold connects; cbn [socks]; rewrite <- unmark_mod; auto).
      unfold connect_udp in C. destruct (Z.eqb_spec (s_bound t) 0) as [Z0|Z0]; cbn [negb] in C.
      * injection C as <- <-. eapply ch_conn; [reflexivity|exact CN|reflexivity|reflexivity|reflexivity|intros; contradiction|discriminate].
      * destruct (if_for_local_ip w (s_bound t)) as [ifx ok]. destruct ok; cbn [negb] in C; injection C as <- <-; [|apply ch_steady, steady_refl].
        eapply ch_conn; [reflexivity|exact CN|reflexivity|reflexivity|reflexivity|left; reflexivity|discriminate].
    + destruct (Z.testbit fd 10) eqn:B10.
      * destruct (Z.leb_spec (zlen (u_icmp st)) (unmark fd)) as [|L]; [injection E as <- <- <-; apply step_id|]. set (t := sock_at (u_icmp st) (unmark fd)) in *.
        destruct (connect_icmp w t ip) as [t' q] eqn:C. injection E as <- <- <-. rewrite set_put_icmp. apply step_put; [cbn [socks]; lia|]. cbn [socks]. fold t.
        assert (CN : connects st fd FIcmp (unmark fd)) by (unfold connects; cbn [socks]; rewrite <- unmark_mod; auto).
        unfold connect_icmp in C. cbn [s_bound set_peer] in C. destruct (Z.eqb_spec (s_bound t) 0) as [Z0|Z0]; cbn [negb] in C.
        -- cbv zeta in C. cbn [s_local set_if set_peer] in C. destruct (Z.eqb_spec (s_local t) 0); injection C as <- <-;
           (eapply ch_conn; [reflexivity|exact CN|reflexivity|reflexivity|reflexivity|intros; contradiction|intros; first [reflexivity|contradiction]]).
        -- destruct (if_for_local_ip w (s_bound t)) as [ifx ok]. destruct ok; cbn [negb] in C; injection C as <- <-; [|apply ch_steady; repeat split].
           eapply ch_conn; [reflexivity|exact CN|reflexivity|reflexivity|reflexivity|left; reflexivity|intros; contradiction].
      * destruct (is_marked fd MARK_TCP); [destruct (zlen (u_tcp st) <=? unmark fd)|]; injection E as <- <- <-; apply step_id.
  - unfold close in E. destruct (decode_spec st fd) as [(x & D0 & _)|(k & i & D0 & D & R)]; rewrite D0 in E; [injection E as <- <- <-; apply step_id|].
    assert (DI : i < zlen (socks st k)) by apply D. destruct k.
    + destruct (s_closed _); injection E as <- <- <-; [|apply step_id]. apply (step_put w st (OClose fd) (RZ 0) FTcp i); [lia|]. eapply ch_close; [reflexivity|reflexivity|exact D|reflexivity].
    + destruct (s_open (sock_at (u_udp st) i)) eqn:OP.
      * destruct (mcast_drop_all w st i 0 4) as [[st1 e1]|] eqn:E1; [|discriminate]. cbn [obind] in E. injection E as <- <- <-. cbn [socks] in DI.
        destruct (drop_all_steady w i HW ltac:(lia) 4 st 0%nat st1 e1 G E1) as (G1 & T1 & I1 & F1).
        intros k j t (J & N). destruct k; cbn [socks] in N.
        -- exists t. split; [split; [assumption|]; cbn [socks u_tcp with_udp]; rewrite T1; assumption|apply ch_steady, steady_refl].
        -- destruct (F2_nth _ _ _ F1 _ _ N) as (t1 & N1 & S1). destruct (Z.eq_dec j i) as [-> |NE].
           ++ exists sock0. split; [split; [assumption|]; cbn [socks u_udp with_udp]; unfold upd; apply set_nth_same; apply nth_error_Some; congruence|]. eapply ch_close; [reflexivity|reflexivity|exact D|reflexivity].
           ++ exists t1. split; [split; [assumption|]; cbn [socks u_udp with_udp]; rewrite upd_other by lia; assumption|]. apply ch_steady. exact S1.
        -- exists t. split; [split; [assumption|]; cbn [socks u_icmp with_udp]; rewrite I1; assumption|apply ch_steady, steady_refl].
      * cbn [obind] in E. injection E as <- <- <-. apply (step_put w st (OClose fd) (RZ 0) FUdp i); [lia|]. eapply ch_close; [reflexivity|reflexivity|exact D|reflexivity].
    + injection E as <- <- <-. apply (step_put w st (OClose fd) (RZ 0) FIcmp i); [lia|]. eapply ch_close; [reflexivity|reflexivity|exact D|reflexivity].
  - destruct (setsockopt_spec w st fd s HW G) as (st2 & r2 & e2 & E2 & _ & C); [destruct s; assumption|]. rewrite E2 in E. injection E as <- <- <-.
    destruct C as [(-> & _)|[(k & i & t & a & b & c & d & tos & _ & _ & Hi & Et & ->)|[(n & g & a & ifx & -> & D & Hn & MG & RI & _ & J & _)|(n & g & a & ifx & sl & -> & D & Hn & MG & RI & _ & J & _)]]].
    + apply step_id.
    + apply step_put; [assumption|]. apply ch_steady. rewrite Et. repeat split.
    + apply joins_steady in J; [|lia]. destruct J as (A & B & C). apply step_lists; [auto|rewrite A; apply steady_all|exact C|rewrite B; apply steady_all].
    + apply leaves_steady in J; [|lia]. destruct J as (A & B & C). apply step_lists; [auto|rewrite A; apply steady_all|exact C|rewrite B; apply steady_all].
  - destruct HO as (B & T). unfold sendto in E. destruct (decode_spec st fd) as [(x & D0 & _)|(k & i & D0 & D & R)]; rewrite D0 in E; [cbn [obind] in E; injection E as <- <- <-; apply step_id|].
    assert (DI : i < zlen (socks st k)) by apply D. destruct k; cbn [obind socks] in *.
    + injection E as <- <- <-. apply step_id.
    + destruct (sendto_udp_spec w (u_id st) (sock_at (u_udp st) i) to b rnd HW (slot_at st FUdp i G ltac:(cbn [socks]; lia)) B T) as (t & id & q & E1 & S & C & C2 & C3 & _). rewrite E1 in E. cbn [obind] in E.
      injection E as <- <- <-. apply step_id2. rewrite set_put_udp. apply step_put; [cbn [socks]; lia|]. cbn [socks]. eapply ch_send; [reflexivity|exact D|apply C|apply C|exact C2|]. destruct (Z.eq_dec (s_local (sock_at (u_udp st) i)) 0); auto.
    + destruct (sendto_icmp_spec w (u_id st) (sock_at (u_icmp st) i) to b rnd HW (slot_at st FIcmp i G ltac:(cbn [socks]; lia)) B T) as (t & id & q & E1 & S & C & C2 & _). rewrite E1 in E. cbn [obind] in E.
      injection E as <- <- <-. apply step_id2. rewrite set_put_icmp. apply step_put; [cbn [socks]; lia|]. cbn [socks]. eapply ch_send; [reflexivity|exact D|apply C|apply C|exact C2|]. eapply sendto_icmp_local. exact E1.
  - unfold recvfrom in E. destruct (decode_spec st fd) as [(x & D0 & _)|(k & i & D0 & (_ & _ & D & _) & R)]; rewrite D0 in E; [cbn [obind] in E; injection E as <- <- <-; apply step_id|].
    destruct k; cbn [obind socks] in *.
    + injection E as <- <- <-. apply step_id.
    + destruct (recv_udp_spec (sock_at (u_udp st) i) blen (slot_at st FUdp i G ltac:(cbn [socks]; lia))) as (t & q & E1 & S & C & _). rewrite E1 in E. cbn [obind] in E.
      injection E as <- <- <-. rewrite set_put_udp. apply step_put; [cbn [socks]; lia|]. apply ch_steady, kept_steady. exact C.
    + destruct (recv_icmp_spec (sock_at (u_icmp st) i) blen (slot_at st FIcmp i G ltac:(cbn [socks]; lia))) as (t & q & E1 & S & C & _). rewrite E1 in E. cbn [obind] in E.
      injection E as <- <- <-. rewrite set_put_icmp. apply step_put; [cbn [socks]; lia|]. apply ch_steady, kept_steady. exact C.
  - destruct HO as (F & I & Z9). destruct (udp_recv_spec w st i f HW G I F (fr69 f Z9)) as (st2 & e2 & E2 & _ & ET & EI & EM & FA & _). rewrite E2 in E. cbn [obind] in E. injection E as <- <- <-.
    apply step_lists; [auto|rewrite ET; apply steady_all| |rewrite EI; apply steady_all]. eapply F2_imp; [exact FA|]. intros x y _ [(_ & _ & _ & HD)|(_ & ->)]; [eapply handed_steady; exact HD|apply steady_refl].
  - destruct HO as (F & I & Z9). destruct (icmp_input_spec w st i f HW G I F (fr69 f Z9)) as (st2 & e2 & E2 & _ & ET & EU & EM & FA & _). rewrite E2 in E. cbn [obind] in E. injection E as <- <- <-.
    apply step_lists; [auto|rewrite ET; apply steady_all|rewrite EU; apply steady_all|]. eapply F2_imp; [exact FA|]. intros x y _ [(_ & _ & _ & _ & HD)|(_ & ->)]; [eapply handed_steady; exact HD|apply steady_refl].
  - destruct HO as (F & I & Z9). destruct (igmp_input_spec st i f ins G F) as (st2 & E2 & _ & ET & EU & EI & _). rewrite E2 in E. cbn [obind] in E. injection E as <- <- <-.
    apply step_lists; [auto|rewrite ET; apply steady_all|rewrite EU; apply steady_all|rewrite EI; apply steady_all].
  - destruct (igmp_timer_spec w st j HW G) as (st2 & e2 & E2 & _ & ET & EU & EI & _). rewrite E2 in E. cbn [obind] in E. injection E as <- <- <-.
    apply step_lists; [auto|rewrite ET; apply steady_all|rewrite EU; apply steady_all|rewrite EI; apply steady_all].
  - destruct (flush_spec w o st HW HO G) as (st2 & e2 & p0 & p1 & p2 & p3 & E2 & _ & _ & _ & G2 & ET & EM & FU & FI). rewrite E2 in E. cbn [obind] in E. injection E as <- <- <-.
    apply step_lists; [auto|rewrite ET; apply steady_all| |].
    + apply F2_of_nth; [destruct G2 as (_ & G2 & _); unfold zlen in *; lia|]. intros j t Nt. destruct (FU j t Nt) as (t' & N' & FD & _). exists t'. split; [assumption|]. apply calm_steady. eapply fed_calm. exact FD.
    + apply F2_of_nth; [destruct G2 as (_ & _ & _ & G2 & _); unfold zlen in *; lia|]. intros j t Nt. destruct (FI j t Nt) as (t' & N' & FD & _). exists t'. split; [assumption|]. apply calm_steady. exact FD.
Qed.
