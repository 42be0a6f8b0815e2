(** The invariant of the datagram sockets, and the effect of reception. *)
From Verif Require Import Base ListUtil Checksum ChecksumProps Route RouteProps Arp HttpUrl Fifo Forward ForwardSpec ForwardProofs ForwardStep Udp UdpFifo UdpSpec UdpFrames.

Definition rx_udp (f : list Z) : Prop := frame_ok f /\ 42 <= zlen f /\ 8 <= ulen f /\ 34 + ulen f <= zlen f.
Definition rx_icmp (f : list Z) : Prop := frame_ok f /\ 42 <= zlen f /\ 28 <= total f /\ 14 + total f <= zlen f.
Definition tx_ok (f : list Z) : Prop := frame_ok f /\ 42 <= zlen f /\ zget f 14 = 69.
Definition mc_ok (l : list (Z * Z)) : Prop := zlen l = 4 /\ Forall (fun m => addr32 (fst m) /\ 0 <= snd m < 256) l.
Definition SI (rx : list Z -> Prop) (t : sock) : Prop :=
  fq (s_open t) RXBUF (s_rx t) (contents (s_rx t)) /\ Forall rx (contents (s_rx t)) /\
  fq (s_open t) TXBUF (s_tx t) (contents (s_tx t)) /\ Forall tx_ok (contents (s_tx t)) /\ mc_ok (s_mc t) /\ ranges t.
Definition Good (st : ust) : Prop :=
  zlen (u_tcp st) = 4 /\ zlen (u_udp st) = 2 /\ Forall (SI rx_udp) (u_udp st) /\ zlen (u_icmp st) = 2 /\ Forall (SI rx_icmp) (u_icmp st) /\ zlen (u_mc st) = 8 /\ Forall (fun m => addr32 (m_group m)) (u_mc st).

Lemma fq_con o s f q : fq o s f q -> fq o s f (contents f) /\ contents f = q.
Proof. intros H. pose proof (fq_contents _ _ _ _ H) as E. rewrite E. auto. Qed.

(** ** Tables *)
Lemma F2_length {A B} (R : A -> B -> Prop) l l' : Forall2 R l l' -> zlen l' = zlen l.
Proof. intros H. unfold zlen. induction H as [|? ? ? ? H1 H2 IH]; cbn [length]; lia. Qed.
Lemma sock_at_in l i t : 0 <= i -> nth_error l (Z.to_nat i) = Some t -> sock_at l i = t.
Proof. intros _ H. unfold sock_at. apply nth_error_nth. assumption. Qed.
Lemma at_some l i : 0 <= i < zlen l -> nth_error l (Z.to_nat i) = Some (sock_at l i).
Proof. intros H. unfold sock_at. apply nth_error_nth'. unfold zlen in *. lia. Qed.
Lemma at_Forall (P : sock -> Prop) l i : Forall P l -> 0 <= i < zlen l -> P (sock_at l i).
Proof. intros H Hi. rewrite Forall_forall in H. apply H. eapply nth_error_In. apply at_some. assumption. Qed.
Lemma upd_Forall (P : sock -> Prop) l i t : Forall P l -> P t -> Forall P (upd l i t).
Proof. intros H HP. apply Forall_forall. intros x Hx. apply set_nth_in in Hx as [-> | Hx]; [assumption|]. rewrite Forall_forall in H. auto. Qed.
Lemma upd_len l i t : zlen (upd l i t) = zlen l.
Proof. unfold upd, zlen. rewrite set_nth_length. reflexivity. Qed.
Lemma upd_at l i t : 0 <= i < zlen l -> sock_at (upd l i t) i = t.
Proof. intros H. unfold sock_at. erewrite nth_error_nth; [reflexivity|]. apply set_nth_same. unfold zlen in H. lia. Qed.
Lemma upd_other l i j t : 0 <= i -> 0 <= j -> i <> j -> nth_error (upd l i t) (Z.to_nat j) = nth_error l (Z.to_nat j).
Proof. intros. apply set_nth_other. lia. Qed.
Lemma upd_same l i : 0 <= i < zlen l -> upd l i (sock_at l i) = l.
Proof.
  intros H. apply nth_ext with (d := sock0) (d' := sock0); [apply set_nth_length|]. intros n Hn. unfold upd in Hn. rewrite set_nth_length in Hn.
  apply some_inj. rewrite <- !nth_error_nth'; [|assumption|unfold upd; rewrite set_nth_length; assumption].
  unfold upd. rewrite set_nth_nth_error. destruct (Nat.eq_dec n (Z.to_nat i)) as [-> | N].
  - rewrite Nat.eqb_refl. destruct (Nat.ltb_spec (Z.to_nat i) (length l)); [|lia]. symmetry. apply at_some. assumption.
  - destruct (Nat.eqb_spec (Z.to_nat i) n); [congruence|reflexivity].
Qed.

(** ** The tests of the receive path *)
Lemma has_mcast_iff t i g : has_mcast t i g = true <-> joined t i g.
Proof.
  unfold has_mcast, joined. rewrite existsb_exists. split.
  - intros ([a b] & Hin & E). cbn [fst snd] in E. assert (a = g /\ b = i) as [-> ->] by lia. assumption.
  - intros H. exists (g, i). split; [assumption|]. cbn [fst snd]. lia.
Qed.
Ltac bp H := repeat (rewrite ?andb_true_iff, ?orb_true_iff, ?Z.eqb_eq in H); tauto.
Lemma match_iff w i f t : Forall byte f -> udp_match w i f t = true <-> wants w i f t.
Proof.
  intros HB. unfold udp_match, wants. cbv zeta. rewrite !rd32_addr. fold (dst f) (src f). change (rd16 f 34) with (sport f). change (rd16 f 36) with (dport f).
  assert (MC : ip_is_multicast (dst f) = true <-> multicast (dst f)) by (apply multicast_iff, addr_range; assumption).
  destruct (ip_is_multicast (dst f)).
  - pose proof (has_mcast_iff t i (dst f)) as HM. destruct (s_conn t); destruct (has_mcast t i (dst f)); cbn [negb orb andb]; split.
    + intros H. split; [lia|]. left. split; [apply MC; reflexivity|]. split; [apply HM; reflexivity|]. intros _. lia.
    + intros (E & [(M & J & P)|[(M & _)|(M & _)]]); [|exfalso; apply M, MC; reflexivity|exfalso; apply M, MC; reflexivity]. specialize (P eq_refl). lia.
    + intros H. rewrite andb_false_r in H. discriminate.
    + intros (E & [(M & J & P)|[(M & _)|(M & _)]]); [|exfalso; apply M, MC; reflexivity|exfalso; apply M, MC; reflexivity]. apply HM in J. discriminate.
    + intros H. split; [lia|]. left. split; [apply MC; reflexivity|]. split; [apply HM; reflexivity|]. discriminate.
    + intros (E & _). lia.
    + intros H. rewrite andb_false_r in H. discriminate.
    + intros (E & [(M & J & P)|[(M & _)|(M & _)]]); [|exfalso; apply M, MC; reflexivity|exfalso; apply M, MC; reflexivity]. apply HM in J. discriminate.
  - assert (NM : ~ multicast (dst f)) by (intros M; apply MC in M; discriminate). split.
    + intros H. split; [lia|]. right. destruct (s_conn t); cbn [negb orb] in H.
      * assert (C : (s_local t = 0 /\ w_dhcp w = true) \/ (s_local t = dst f /\ (s_dst t = 0 \/ s_dst t = sport f) /\ (s_remote t = 0 \/ s_remote t = src f))) by bp H.
        destruct C as [C|(C1 & C2)]; [right; auto|left; auto].
      * assert (C : (s_local t = 0 /\ w_dhcp w = true) \/ s_local t = dst f) by bp H.
        destruct C as [C|C]; [right; auto|left; split; [assumption|split; [assumption|discriminate]]].
    + repeat (rewrite ?andb_true_iff, ?orb_true_iff, ?negb_true_iff, ?Z.eqb_eq). intros (E & [(M & _)|[(_ & L & P)|(_ & L & D)]]); [contradiction| |].
      * destruct (s_conn t); [specialize (P eq_refl)|]; tauto.
      * tauto.
Qed.
Lemma udp_ok_spec w i f : frame_ok f -> exists b, udp_ok w i f = Some b /\ (b = true <-> valid_udp f /\ w_frecv w i f = false).
Proof.
  intros [HB HL]. unfold udp_ok, valid_udp. cbv zeta. change (rd16 f 16) with (total f). change (rd16 f 38) with (ulen f). change (rd16 f 40) with (word f 40).
  pose proof (word_range f 16 HB) as RT. pose proof (word_range f 38 HB) as RU. fold (total f) in RT. fold (ulen f) in RU.
  destruct (Z.ltb_spec (zlen f) 42); [exists false; split; [reflexivity|]; split; [discriminate|lia]|].
  destruct (Z.ltb_spec (zlen f) (14 + total f)); [exists false; split; [reflexivity|]; split; [discriminate|lia]|].
  destruct (Z.ltb_spec (ulen f) 8); [exists false; split; [reflexivity|]; split; [discriminate|lia]|].
  destruct (Z.ltb_spec (zlen f - 14 - 20) (ulen f)); [exists false; split; [reflexivity|]; split; [discriminate|lia]|].
  destruct ((total f <? 20) || (u16 (total f - 20) <? ulen f)) eqn:Q.
  { exists false. split; [reflexivity|]. split; [discriminate|]. intros (V & _). exfalso. unfold u16 in Q. rewrite Z.mod_small in Q by lia. lia. }
  assert (UB : ulen f <= total f - 20) by (unfold u16 in Q; rewrite Z.mod_small in Q by lia; lia). clear Q.
  destruct (Z.eqb_spec (word f 40) 0) as [Z0|NZ].
  - cbn [obind negb]. exists (negb (w_frecv w i f)). split; [reflexivity|]. destruct (w_frecv w i f); cbn [negb]; intuition (try discriminate; lia).
  - rewrite mread_part by lia. cbn [obind].
    set (ph := pseudo (slice f 26 4) (slice f 30 4) 17 (ulen f)).
    assert (EP : ph = pseudo_header f).
    { unfold ph, pseudo, pseudo_header. rewrite !slice_part. change (Z.of_nat 26) with 26. change (Z.of_nat 30) with 30. change (Z.of_nat 4) with 4.
      rewrite (part_be16 f 38) by (assumption || lia). fold (ulen f). change (Checksum.be16 (ulen f)) with (be16 (ulen f)). rewrite app_assoc. f_equal.
      apply zget_ext; [rewrite zlen_app, !zlen_part by lia; reflexivity|]. intros k K. rewrite zlen_app, !zlen_part in K by lia. rewrite zget_part by lia.
      destruct (Z.lt_ge_cases k 4); [rewrite zget_app1 by (rewrite zlen_part; lia); rewrite zget_part by lia; reflexivity|].
      rewrite zget_app2 by (rewrite zlen_part; lia). rewrite zlen_part by lia. rewrite zget_part by lia. f_equal. lia. }
    assert (BP : Forall byte ph) by (rewrite EP; unfold pseudo_header; apply Forall_app2; [apply part_bytes; assumption|]; apply Forall_app2; [apply bytes_lit; reflexivity|apply part_bytes; assumption]).
    assert (LP : zlen ph = 12) by (rewrite EP; unfold pseudo_header; rewrite !zlen_app, !zlen_part by lia; reflexivity).
    destruct (transport_valid_iff ph (part f 34 (ulen f)) BP LP) as (r & Er & Hr); [apply part_bytes; assumption|rewrite zlen_part; lia|].
    rewrite Er. cbn [obind]. rewrite EP in Hr. destruct r; cbn [negb].
    + exists (negb (w_frecv w i f)). split; [reflexivity|]. assert (V : ones_complement_valid (pseudo_header f ++ part f 34 (ulen f))) by (apply Hr; reflexivity).
      destruct (w_frecv w i f); cbn [negb]; intuition (try discriminate; lia).
    + exists false. split; [reflexivity|]. split; [discriminate|]. intros ((_ & _ & _ & V) & _). exfalso. specialize (V NZ). apply Hr in V. discriminate.
Qed.

(** ** Queueing a received packet *)
Lemma push_rx_spec rx t f : SI rx t -> rx f -> zlen f <= 65536 -> exists t', push_rx t f = Some t' /\ SI rx t' /\ handed t f t' /\ s_if t' = s_if t.
Proof.
  intros (Q1 & F1 & Q2 & F2 & M & R) RF LF. unfold push_rx.
  destruct (fq_push _ _ _ _ f Q1) as (q & r & l & E & QQ & EN & R0 & CP & CS); [unfold DESC; lia|]. rewrite E. cbn [obind].
  destruct (fq_con _ _ _ _ QQ) as [QQ' EC]. rewrite <- EC in CS.
  assert (FC : Forall rx (contents q)).
  { destruct CS as [(_ & -> & _)|(_ & [CS|(_ & [CS|CS])])]; [assumption| | |]; rewrite CS; [apply Forall_app2; [assumption|]|constructor|]; constructor; try assumption; constructor. }
  eexists. split; [reflexivity|]. assert (X : forall b : bool, SI rx (if b then set_rx q (zget f 22) t else set_rx q (s_ttl t) t)).
  { intros b. destruct b; (split; [exact QQ'|]; split; [exact FC|]; split; [exact Q2|]; split; [exact F2|]; split; [exact M|exact R]). }
  split; [apply X|]. split; [|destruct (r =? 0); reflexivity].
  split; [destruct (r =? 0); unfold same_attr; repeat (split; [reflexivity|]); reflexivity|].
  split; [destruct (r =? 0); exact EN|]. intros HC. apply CP in HC. rewrite HC. reflexivity.
Qed.
Lemma SI_set_if rx t v : SI rx t -> SI rx (set_if v t).
Proof. intros H. exact H. Qed.
Lemma handed_set_if t v f t' : handed (set_if v t) f t' -> handed t f t'.
Proof. intros H. exact H. Qed.
Lemma deliver_spec w i f : rx_udp f -> forall l, Forall (SI rx_udp) l -> exists l' m, udp_deliver w i f l = Some (l', m) /\ Forall (SI rx_udp) l' /\
  Forall2 (fun t t' => (udp_match w i f t = true /\ handed t f t') \/ (udp_match w i f t = false /\ t' = t)) l l' /\ (m = true <-> exists t, In t l /\ udp_match w i f t = true).
Proof.
  intros RF. assert (LF : zlen f <= 65536) by apply RF. induction l as [|t l IH]; intros H.
  - exists [], false. split; [reflexivity|]. split; [constructor|]. split; [constructor|]. split; [discriminate|]. intros (t & [] & _).
  - inversion H as [|? ? Ht Hl]. subst. destruct (IH Hl) as (l' & m & E & G & F & MM). cbn [udp_deliver].
    destruct (udp_match w i f t) eqn:Q.
    + set (t1 := if s_local t =? 0 then set_if (u8 i) t else t). assert (S1 : SI rx_udp t1) by (unfold t1; destruct (s_local t =? 0); exact Ht).
      destruct (push_rx_spec _ t1 f S1 RF LF) as (t' & E' & S' & H' & _). rewrite E'. cbn [obind]. rewrite E. cbn [obind].
      assert (HH : handed t f t') by (unfold t1 in H'; destruct (s_local t =? 0); [apply handed_set_if in H'|]; exact H').
      exists (t' :: l'), true. split; [reflexivity|]. split; [constructor; assumption|]. split; [constructor; [left; auto|assumption]|].
      split; [intros _; exists t; split; [left; reflexivity|assumption]|reflexivity].
    + cbn [obind]. rewrite E. cbn [obind]. exists (t :: l'), m. split; [reflexivity|]. split; [constructor; assumption|]. split; [constructor; [right; auto|assumption]|].
      rewrite MM. split; [intros (u & Hu & Mu); exists u; split; [right; assumption|assumption]|]. intros (u & [<- | Hu] & Mu); [congruence|exists u; auto].
Qed.

(** ** Addresses *)
Lemma find_if_spec ip : forall cs k, (exists i, find_if cs k ip = Some i /\ k <= i < k + zlen cs /\ exists c, nth_error cs (Z.to_nat (i - k)) = Some c /\ c_ip c = ip) \/
  (find_if cs k ip = None /\ forall c, In c cs -> c_ip c <> ip).
Proof.
  induction cs as [|c cs IH]; intros k; cbn [find_if]; [right; split; [reflexivity|intros ? []]|].
  rewrite zlen_cons. pose proof (zlen_nonneg cs). destruct (Z.eqb_spec (c_ip c) ip).
  - left. exists k. split; [reflexivity|]. split; [lia|]. rewrite Z.sub_diag. exists c. auto.
  - destruct (IH (k + 1)) as [(i & E & R & d & N & D)|(E & A)].
    + left. exists i. split; [assumption|]. split; [lia|]. exists d. replace (Z.to_nat (i - k)) with (S (Z.to_nat (i - (k + 1)))) by lia. auto.
    + right. split; [assumption|]. intros d [<- | Hd]; auto.
Qed.
Lemma own_if w a : snd (if_for_local_ip w a) = true <-> own w a.
Proof.
  unfold if_for_local_ip, own, conf_of. change (confs w) with (w_confs w). destruct (Z.eqb_spec (zlen (w_confs w)) 0) as [L0|].
  { split; [discriminate|]. intros (i & c & (H0 & N & _) & _). apply nth_error_In in N. destruct (w_confs w); [destruct N|rewrite zlen_cons in L0; pose proof (zlen_nonneg l); lia]. }
  destruct (Z.eqb_spec a 0) as [A0|NA]; [split; [discriminate|]; intros (i & c & (_ & _ & C) & E); congruence|].
  destruct (find_if_spec a (w_confs w) 0) as [(i & E & R & c & N & C)|(E & A)]; rewrite E; cbn [snd].
  - split; [|reflexivity]. intros _. exists i, c. rewrite Z.sub_0_r in N. split; [split; [lia|split; [assumption|congruence]]|assumption].
  - split; [discriminate|]. intros (i & c & (_ & N & _) & C). exfalso. apply (A c); [eapply nth_error_In; exact N|assumption].
Qed.

(** ** Reception of a UDP packet *)
Lemma udp_recv_spec w st i f : uworld_ok w -> Good st -> 0 <= i < zlen (w_ifs w) -> frame_ok f -> (42 <= zlen f -> zget f 14 = 69) ->
  exists st' evs, udp_recv w st i f = Some (st', evs) /\ Good st' /\
    u_tcp st' = u_tcp st /\ u_icmp st' = u_icmp st /\ u_mc st' = u_mc st /\
    Forall2 (fun t t' => (valid_udp f /\ w_frecv w i f = false /\ wants w i f t /\ handed t f t') \/
                         (~ (valid_udp f /\ w_frecv w i f = false /\ wants w i f t) /\ t' = t)) (u_udp st) (u_udp st') /\
    (evs = [] \/ exists g, evs = [UUnreach i g] /\ port_unreachable w i f g /\ valid_udp f /\ w_frecv w i f = false /\
                           unicast_to_us w f /\ forall t, In t (u_udp st) -> ~ wants w i f t) /\
    (valid_udp f -> w_frecv w i f = false -> unicast_to_us w f -> (forall t, In t (u_udp st) -> ~ wants w i f t) ->
     (forall g, w_fsend w i g = false) -> 70 <= w_mtu w i -> evs <> []).
Proof.
  intros HW HG Hi HF H69. pose proof HF as [HB HL]. pose proof HG as (G1 & G2 & G3 & G4 & G5 & G6). unfold udp_recv.
  destruct (udp_ok_spec w i f HF) as (b & Eb & Vb). rewrite Eb. cbn [obind]. destruct b; cbn [negb].
  2:{ assert (NV : ~ (valid_udp f /\ w_frecv w i f = false)) by (intros X; apply Vb in X; discriminate).
      exists st, []. split; [reflexivity|]. split; [assumption|]. split; [reflexivity|]. split; [reflexivity|]. split; [reflexivity|].
      split. { clear -NV. induction (u_udp st); constructor; [right; split; [tauto|reflexivity]|assumption]. }
      split; [left; reflexivity|]. intros V F. exfalso. tauto. }
  assert (VF : valid_udp f /\ w_frecv w i f = false) by (apply Vb; reflexivity). destruct VF as [V F]. pose proof V as (V1 & V2 & V3 & V4).
  assert (RF : rx_udp f) by (split; [assumption|]; lia).
  destruct (deliver_spec w i f RF _ G3) as (l & m & E & GL & FL & MM). rewrite E. cbn [obind].
  assert (GD : Good (with_udp st l)).
  { split; [assumption|]. split; [cbn [u_udp with_udp]; rewrite (F2_length _ _ _ FL); assumption|]. split; [assumption|]. split; [assumption|]. split; [assumption|]. assumption. }
  assert (FA : Forall2 (fun t t' => (valid_udp f /\ w_frecv w i f = false /\ wants w i f t /\ handed t f t') \/
                         (~ (valid_udp f /\ w_frecv w i f = false /\ wants w i f t) /\ t' = t)) (u_udp st) l).
  { clear -FL V F HB. induction FL as [|t t' l l' H FL IH]; constructor; [|assumption]. pose proof (match_iff w i f t HB) as MI. destruct H as [[H1 H2]|[H1 H2]].
    - left. rewrite <- MI. auto.
    - right. split; [|assumption]. intros (_ & _ & W). apply MI in W. congruence. }
  destruct m.
  { eexists _, []. split; [reflexivity|]. split; [exact GD|]. split; [reflexivity|]. split; [reflexivity|]. split; [reflexivity|]. split; [exact FA|].
    split; [left; reflexivity|]. intros _ _ _ NW. exfalso. destruct MM as [MM _]. destruct (MM eq_refl) as (t & Ht & Mt). apply (NW t Ht). apply match_iff; assumption. }
  assert (NW : forall t, In t (u_udp st) -> ~ wants w i f t).
  { intros t Ht W. destruct MM as [_ MM]. assert (false = true) by (apply MM; exists t; split; [assumption|apply match_iff; assumption]). discriminate. }
  cbv zeta. rewrite !rd32_addr. fold (dst f) (src f).
  match goal with |- context [if ?c then send_port_unreachable _ _ _ _ else _] => set (cond := c) end.
  assert (CU : cond = true <-> unicast_to_us w f).
  { unfold cond, unicast_to_us. rewrite !andb_true_iff, !negb_true_iff, !Z.eqb_neq. rewrite own_if.
    pose proof (broadcast_iff w (dst f)) as B1. pose proof (broadcast_iff w (src f)) as B2.
    pose proof (multicast_iff (dst f) (addr_range f 30 HB)) as M1. pose proof (multicast_iff (src f) (addr_range f 26 HB)) as M2.
    destruct (ip_is_broadcast (w_confs w) (dst f)), (ip_is_broadcast (w_confs w) (src f)), (ip_is_multicast (dst f)), (ip_is_multicast (src f));
      intuition discriminate. }
  destruct cond.
  - destruct (unreach_spec w (with_udp st l) i f HW Hi HB V1 (H69 V1)) as (st' & evs & Eu & Es & Ee & Le). rewrite Eu.
    assert (UU : unicast_to_us w f) by (apply CU; reflexivity).
    exists st', evs. split; [reflexivity|].
    assert (GS : Good st' /\ u_tcp st' = u_tcp st /\ u_icmp st' = u_icmp st /\ u_mc st' = u_mc st /\ u_udp st' = l) by (destruct Es as [-> | ->]; repeat (split; [first [exact GD|reflexivity]|]); reflexivity).
    destruct GS as (GS1 & GS2 & GS3 & GS4 & GS5). split; [assumption|]. split; [assumption|]. split; [assumption|]. split; [assumption|]. rewrite GS5. split; [exact FA|].
    split; [|auto]. destruct Ee as [-> | (g & -> & P)]; [left; reflexivity|]. right. exists g. split; [reflexivity|]. split; [assumption|]. split; [assumption|]. split; [assumption|]. split; [assumption|]. exact NW.
  - eexists _, []. split; [reflexivity|]. split; [exact GD|]. split; [reflexivity|]. split; [reflexivity|]. split; [reflexivity|]. split; [exact FA|].
    split; [left; reflexivity|]. intros _ _ U. exfalso. apply CU in U. discriminate.
Qed.
