(** Lemmas about the TCP state machine. *)
From Verif Require Import Base ListUtil Seq SeqProps Queue QueueProofs TcpRecv TcpRecvSafe TcpState TcpStateSpec.

Lemma tst_eqb_true a b : tst_eqb a b = true <-> a = b.
Proof. split; [destruct a, b; cbn; congruence|intros ->; destruct b; reflexivity]. Qed.
Lemma tst_eqb_false a b : tst_eqb a b = false <-> a <> b.
Proof. split; [intros H ->; destruct b; discriminate|destruct a, b; cbn; congruence]. Qed.

Lemma leq_at_or_after x y : is_u32 x -> is_u32 y -> tcp_seq_leq y x = true <-> at_or_after x y.
Proof. unfold is_u32, at_or_after, tcp_seq_leq. intros Hx Hy. change (2^32) with 4294967296. change (2^31) with 2147483648. destruct (y <=? x) eqn:E; lia. Qed.
Lemma inc1 x : is_u32 x -> tcp_seq_inc x 1 = (x + 1) mod 4294967296.
Proof. unfold is_u32, tcp_seq_inc, u32. intros H. destruct (_ <? _) eqn:E; lia. Qed.
Lemma at_or_after_inc x y : is_u32 x -> is_u32 y -> tcp_seq_leq (tcp_seq_inc y 1) x = true <-> at_or_after x (y + 1).
Proof.
  intros Hx Hy. rewrite leq_at_or_after by (try apply inc_u32; assumption). unfold at_or_after. rewrite inc1 by assumption.
  change (2^32) with 4294967296. rewrite (Zminus_mod_idemp_r x (y + 1)). reflexivity.
Qed.
(** In SYN_SENT the acceptable acknowledgement is exactly that of the SYN. *)
Lemma synsent_ack_exact una a : is_u32 una -> is_u32 a ->
  negb (tcp_seq_lt una a) || tcp_seq_lt (tcp_seq_inc una 1) a = false -> a = (una + 1) mod 4294967296.
Proof.
  unfold is_u32. intros Hu Ha. rewrite inc1 by exact Hu. unfold tcp_seq_lt, tcp_seq_leq.
  set (m := (una + 1) mod 4294967296). assert (Hm : 0 <= m < 4294967296 /\ (m = una + 1 \/ (una = 4294967295 /\ m = 0))) by (unfold m; lia). clearbody m.
  destruct (una <=? a) eqn:E1; destruct (m <=? a) eqn:E2; lia.
Qed.

(** Ranges of a segment's fields, and the invariant of a socket slot; [N] is the size of the
    receive memory. *)
Definition seg_ok (g : tseg) : Prop := is_u32 (g_seq g) /\ is_u32 (g_ackn g) /\ zlen (g_data g) < 65536
  /\ (forall v, g_ts g = Some v -> is_u32 v).
Definition rx_good (N : Z) (r : rxs) : Prop :=
  Safe (N - 1) r \/ (q_size (rx_q r) = 0 /\ is_u32 (rx_ack r)).
Definition sk_inv (N : Z) (t : sk) : Prop :=
  rx_good N (k_rx t) /\ is_u32 (k_seq t) /\ is_u32 (k_una t) /\ is_u32 (k_last t) /\ is_u32 (k_lts t)
  /\ (k_st t = SYN_SENT \/ k_st t = SYN_RCVD -> k_una t = k_seq t)
  /\ (k_live t = false -> k_st t = CLOSED).

Lemma rx_good_ack N r : rx_good N r -> is_u32 (rx_ack r).
Proof. intros [H|[_ H]]; [apply H|exact H]. Qed.
Lemma rx_good_wnd N r : 1 < N <= 1073741824 -> rx_good N r -> 0 <= queue_space (rx_q r) < 2^30.
Proof.
  intros HN [H|[H _]]; [|unfold queue_space; rewrite H; cbn; lia].
  destruct H as ((l & W) & HS & _). destruct W as (W1 & W2 & W3 & W4 & _). unfold queue_space. replace (q_size (rx_q r)) with N in * by lia.
  destruct (N <=? 1) eqn:E; [lia|]. change (2^30) with 1073741824. unfold u32. destruct (q_tail (rx_q r) <=? q_head (rx_q r)) eqn:E2; lia.
Qed.

Lemma bswap_u32 v : is_u32 (bswap32 v).
Proof. unfold is_u32, bswap32. lia. Qed.

Lemma acceptable_spec N t g : 1 < N <= 1073741824 -> rx_good N (k_rx t) -> seg_ok g -> acceptable t g = true -> seq_acceptable t g.
Proof.
  intros HN HR (G1 & G2 & G3 & _) H. unfold acceptable in H. unfold seq_acceptable, in_window, rcv_wnd.
  pose proof (rx_good_wnd N _ HN HR) as HW. pose proof (rx_good_ack N _ HR) as HA.
  assert (HL : 0 <= g_len g < 2^30) by (unfold g_len; pose proof (zlen_nonneg (g_data g)); change (2^30) with 1073741824; destruct (g_syn g), (g_fin g); lia).
  destruct (g_len g =? 0) eqn:EL.
  - unfold tcp_segment_acceptable in H. rewrite EL in H. destruct (queue_space (rx_q (k_rx t)) =? 0) eqn:EW.
    + left. split; [lia|]. apply Z.eqb_eq in H. exact H.
    + pose proof (acceptable_in_window (k_ack t) (queue_space (rx_q (k_rx t))) (g_seq g) (g_len g) HA HW G1 HL) as K.
      unfold tcp_segment_acceptable in K. rewrite EL, EW in K. specialize (K H). right; left. lia.
  - right. destruct (queue_space (rx_q (k_rx t)) =? 0) eqn:EW; [unfold tcp_segment_acceptable in H; rewrite EL, EW in H; discriminate|].
    destruct (acceptable_in_window (k_ack t) (queue_space (rx_q (k_rx t))) (g_seq g) (g_len g) HA HW G1 HL H) as [K|[K1 K2]]; [left; lia|right; split; [lia|exact K2]].
Qed.

Lemma paws_spec N t g : sk_inv N t -> seg_ok g -> paws_check t g = PawsOk -> paws_ok t g.
Proof.
  intros HI (_ & _ & _ & HV) H HT. unfold paws_check in H. rewrite HT in H. cbn [negb] in H.
  destruct (g_ts g) as [v|] eqn:EV; [|discriminate]. exists v. split; [reflexivity|]. intros HR. rewrite HR in H. cbn [andb] in H.
  unfold ts_recent. specialize (HV v eq_refl). pose proof (bswap_u32 (k_lts t)) as HB.
  destruct (tcp_seq_lt v (bswap32 (k_lts t))) eqn:E; [discriminate|]. unfold tcp_seq_lt, tcp_seq_leq in E. unfold at_or_after, is_u32 in *.
  change (2^32) with 4294967296. change (2^31) with 2147483648. destruct (v <=? bswap32 (k_lts t)) eqn:E2; lia.
Qed.

(** Field preservation *)
Lemma process_ts_eq t g : exists o v l, process_ts t g = set_ts t o v l /\ o = k_ts t /\ (is_u32 (k_lts t) -> is_u32 l).
Proof.
  unfold process_ts. destruct (g_ts g) as [v|]; [|exists (k_ts t), (k_tsv t), (k_lts t); split; [destruct t; reflexivity|auto]].
  destruct (_ || _); [exists (k_ts t), true, (bswap32 v); split; [reflexivity|split; [reflexivity|intros; apply bswap_u32]]|exists (k_ts t), (k_tsv t), (k_lts t); split; [destruct t; reflexivity|auto]].
Qed.
Lemma process_ts_st t g : k_st (process_ts t g) = k_st t.
Proof. destruct (process_ts_eq t g) as (o & v & l & -> & _). reflexivity. Qed.

(** The window and option processing that precedes everything else. *)
Lemma pre_sync t g : k_st t <> LISTEN -> k_st t <> SYN_SENT -> exists w, peer_window (syn_options t g) g = set_win t w (k_wson t) (k_wsc t) /\ (g_rst g = true -> w = k_rwnd t).
Proof.
  intros H1 H2. assert (E : syn_options t g = t) by (unfold syn_options; destruct (g_syn g), (k_st t); congruence). rewrite E.
  unfold peer_window. destruct (g_rst g); [exists (k_rwnd t); split; [destruct t; reflexivity|auto]|].
  exists (Z.shiftl (g_win g) (if k_wson t && negb (g_syn g) then k_wsc t else 0)). split; [reflexivity|discriminate].
Qed.
Lemma pre_any t g : exists w o c ts, peer_window (syn_options t g) g = set_ts (set_win t w o c) ts (k_tsv t) (k_lts t).
Proof.
  assert (A : exists o c ts, syn_options t g = set_ts (set_win t (k_rwnd t) o c) ts (k_tsv t) (k_lts t)).
  { assert (A0 : t = set_ts (set_win t (k_rwnd t) (k_wson t) (k_wsc t)) (k_ts t) (k_tsv t) (k_lts t)) by (destruct t; reflexivity).
    unfold syn_options. destruct (g_syn g); [|do 3 eexists; exact A0]. destruct (k_st t); do 3 eexists; try exact A0; reflexivity. }
  destruct A as (o & c & ts & ->). unfold peer_window. destruct (g_rst g); [exists (k_rwnd t), o, c, ts; reflexivity|].
  exists (Z.shiftl (g_win g) (if o && negb (g_syn g) then c else 0)), o, c, ts. reflexivity.
Qed.

(** ** State after each handler *)
Lemma rst_input_cases i t g t' o s : rst_input i t g = (t', o, s) -> s = false /\
  (t' = t \/
   (k_st t = SYN_RCVD /\ g_seq g = k_ack t /\ k_lsn t = true /\ t' = set_ack (set_addr (set_st t LISTEN) (k_lport t) 0 (k_lip t) 0) 0) \/
   (k_st t = SYN_RCVD /\ g_seq g = k_ack t /\ k_lsn t = false /\ (t' = set_app (set_st t CLOSED) (k_lsn t) true true (k_cnp t) \/ t' = close_socket t)) \/
   (k_st t = SYN_SENT /\ g_ack g = true /\ negb (tcp_seq_lt (k_una t) (g_ackn g)) || tcp_seq_lt (tcp_seq_inc (k_seq t) 1) (g_ackn g) = false /\ t' = close_socket t) \/
   (k_st t <> SYN_SENT /\ k_st t <> LISTEN /\ g_seq g = k_ack t /\ t' = close_socket t)).
Proof.
  unfold rst_input. intros H.
  destruct (k_st t) eqn:ES;
    try (destruct (g_seq g =? k_ack t) eqn:EQ; cbn [negb] in H; inversion H; subst t' s; split; try reflexivity;
         [right; right; right; right; repeat split; try congruence; lia | left; reflexivity]).
  - inversion H; auto.
  - destruct (g_ack g) eqn:EA; cbn [negb] in H; [|inversion H; auto].
    destruct (negb _ || _) eqn:EW; inversion H; split; auto. right; right; right; left. auto.
  - destruct (g_seq g =? k_ack t) eqn:EQ; cbn [negb] in H; [|inversion H; auto]. apply Z.eqb_eq in EQ.
    destruct (k_lsn t) eqn:EL; [inversion H; split; [auto|]; right; left; auto|].
    destruct (k_cb t) eqn:EC; inversion H; split; auto; right; right; left; rewrite ?EL; auto.
Qed.

Lemma close_socket_st t : k_st (close_socket t) = CLOSED.
Proof. unfold close_socket. destruct (k_cb t); reflexivity. Qed.

Lemma ack_una_st b t g : k_st (ack_una b t g) = k_st t.
Proof. unfold ack_una. destruct (_ && _ && _); [|reflexivity]. destruct (_ && _); reflexivity. Qed.
Lemma ack_una_rx b t g : k_rx (ack_una b t g) = k_rx t.
Proof. unfold ack_una. destruct (_ && _ && _); [|reflexivity]. destruct (_ && _); reflexivity. Qed.

Definition fin_cov (t : sk) (g : tseg) : bool := tcp_seq_leq (tcp_seq_inc (k_last t) 1) (g_ackn g).
Lemma ack_state_st t g : k_st (ack_state t g) = match k_st t with
    | FIN_WAIT_1 => if fin_cov t g then FIN_WAIT_2 else FIN_WAIT_1
    | CLOSING => if fin_cov t g then TIME_WAIT else CLOSING
    | s => s end.
Proof. unfold ack_state, fin_cov. destruct (k_st t) eqn:E; try exact E; destruct (tcp_seq_leq _ _); try exact E; reflexivity. Qed.
Lemma tcp_ack_st b t g : k_st (tcp_ack b t g) = match k_st t with
    | FIN_WAIT_1 => if fin_cov t g then FIN_WAIT_2 else FIN_WAIT_1
    | CLOSING => if fin_cov t g then TIME_WAIT else CLOSING
    | LAST_ACK => if fin_cov t g then CLOSED else LAST_ACK
    | s => s end.
Proof.
  unfold tcp_ack. destruct (tst_eqb (k_st t) LAST_ACK) eqn:E; cbn [andb].
  - apply tst_eqb_true in E. rewrite E. unfold fin_cov. destruct (tcp_seq_leq _ _) eqn:E2.
    + destruct (k_cb _); [reflexivity|apply close_socket_st].
    + rewrite ack_una_st, ack_state_st, E. reflexivity.
  - apply tst_eqb_false in E. rewrite ack_una_st, ack_state_st. destruct (k_st t); congruence.
Qed.

Lemma fin_input_st i t g t' o s : fin_input i t g = (t', o, s) -> s = false /\
  (k_st t' = k_st t \/ (g_fin g = true /\ ((k_st t = ESTABLISHED /\ k_st t' = CLOSE_WAIT) \/ (k_st t = FIN_WAIT_1 /\ k_st t' = CLOSING)
     \/ (k_st t = FIN_WAIT_2 /\ k_st t' = TIME_WAIT)))).
Proof.
  unfold fin_input. destruct (g_fin g); [|intros H; inversion H; auto].
  destruct (_ || _); intros H; inversion H; split; auto. destruct (k_st t) eqn:E; cbn; rewrite ?E; auto 6.
Qed.

Lemma synrcvd_st i t g t' o s : k_st t = SYN_RCVD -> synrcvd_input i t g = Some (t', o, s) -> s = false /\
  (t' = t \/ (g_ack g = true /\ acceptable t g = true /\ g_ackn g = tcp_seq_inc (k_una t) 1 /\
     (k_st t' = ESTABLISHED \/ (k_st t' = CLOSE_WAIT /\ g_fin g = true)))).
Proof.
  unfold synrcvd_input. intros HS H.
  destruct (g_syn g && negb (g_ack g) && _); [inversion H; auto|].
  destruct (g_ack g); cbn [negb] in H; [|inversion H; auto].
  destruct (acceptable t g); cbn [negb] in H; [|inversion H; auto].
  destruct (g_ackn g =? tcp_seq_inc (k_una t) 1) eqn:EA; cbn [negb] in H; [|inversion H; auto]. apply Z.eqb_eq in EA.
  set (t3 := set_snd (if k_lsn (ctrl_stop (set_st t ESTABLISHED)) then pre_start (ctrl_stop (set_st t ESTABLISHED)) else ctrl_stop (set_st t ESTABLISHED)) (g_ackn g) (g_ackn g) (k_last t)) in *.
  assert (E3 : k_st t3 = ESTABLISHED) by (unfold t3; destruct (k_lsn _); reflexivity).
  destruct (if 0 <? zlen (g_data g) then _ else _) as [[rx acks]|]; cbn [obind] in H; [|discriminate].
  destruct (g_fin g).
  - destruct (k_ack (set_rx t3 rx) =? _); inversion H; split; auto; right; auto 6.
  - inversion H; split; auto; right; auto 6.
Qed.

Definition data_state (s : tst) : bool := match s with ESTABLISHED | CLOSE_WAIT | FIN_WAIT_1 | FIN_WAIT_2 | CLOSING => true | _ => false end.
Definition sync_state (s : tst) : bool := data_state s || match s with TIME_WAIT | LAST_ACK => true | _ => false end.

Lemma sync_input_st env i t g t' o s : sync_input env i t g = Some (t', o, s) ->
  t' = t \/
  (sync_state (k_st t) = true /\ k_st t <> TIME_WAIT /\ paws_check t g = PawsOk /\ acceptable t g = true /\ g_syn g = false /\ g_ack g = true /\
    (k_st t' = k_st (tcp_ack (e_infl env) t g) \/
     (g_fin g = true /\ ((k_st (tcp_ack (e_infl env) t g) = ESTABLISHED /\ k_st t' = CLOSE_WAIT) \/ (k_st (tcp_ack (e_infl env) t g) = FIN_WAIT_1 /\ k_st t' = CLOSING)
     \/ (k_st (tcp_ack (e_infl env) t g) = FIN_WAIT_2 /\ k_st t' = TIME_WAIT))))).
Proof.
  unfold sync_input. intros H.
  assert (D : data_state (k_st t) = true ->
    match paws_check t g with
    | PawsAckDrop => Some (t, [OAck i], false)
    | PawsDrop => Some (t, [], false)
    | PawsOk =>
      if negb (acceptable t g) then Some (t, [OAck i], false)
      else if g_syn g then Some (t, [OAck i], false)
      else if negb (g_ack g) then Some (t, [], false)
      else
        let t1 := process_ts (tcp_ack (e_infl env) t g) g in
        if (0 <? zlen (g_data g)) && tst_eqb (k_st t1) CLOSING then Some (t1, [], true)
        else
          do (rx, acks) <- (if (0 <? zlen (g_data g)) && rx_state (k_st t1) then tcp_recv (k_rx t1) (g_seq g) (g_data g) else Some (k_rx t1, []));
          let '(t2, o, stop) := fin_input i (set_rx t1 rx) g in
          Some (t2, map (fun _ => OAck i) acks ++ o, stop)
    end = Some (t', o, s) -> t' = t \/
  (sync_state (k_st t) = true /\ k_st t <> TIME_WAIT /\ paws_check t g = PawsOk /\ acceptable t g = true /\ g_syn g = false /\ g_ack g = true /\
    (k_st t' = k_st (tcp_ack (e_infl env) t g) \/
     (g_fin g = true /\ ((k_st (tcp_ack (e_infl env) t g) = ESTABLISHED /\ k_st t' = CLOSE_WAIT) \/ (k_st (tcp_ack (e_infl env) t g) = FIN_WAIT_1 /\ k_st t' = CLOSING)
     \/ (k_st (tcp_ack (e_infl env) t g) = FIN_WAIT_2 /\ k_st t' = TIME_WAIT)))))).
  { intros HD K. destruct (paws_check t g); [|inversion K; auto|inversion K; auto].
    destruct (acceptable t g); cbn [negb] in K; [|inversion K; auto].
    destruct (g_syn g); [inversion K; auto|]. destruct (g_ack g); cbn [negb] in K; [|inversion K; auto].
    right. split; [unfold sync_state; rewrite HD; reflexivity|]. split; [intros E; rewrite E in HD; discriminate|]. do 4 (split; [reflexivity|]).
    cbv zeta in K. rewrite process_ts_st in K.
    destruct (_ && _) in K; [inversion K; subst; rewrite process_ts_st; auto|].
    destruct (if _ && _ then _ else _) as [[rx acks]|] in K; cbn [obind] in K; [|discriminate].
    destruct (fin_input i (set_rx (process_ts (tcp_ack (e_infl env) t g) g) rx) g) as [[t2 o2] s2] eqn:EF.
    destruct (fin_input_st _ _ _ _ _ _ EF) as (_ & EF2). cbn [k_st set_rx] in EF2. rewrite process_ts_st in EF2. inversion K; subst t' o s. exact EF2. }
  destruct (k_st t) eqn:ES; try (inversion H; left; reflexivity); try (apply D; [reflexivity|exact H]).
  - left. destruct (paws_check t g); inversion H; reflexivity.
  - destruct (paws_check t g); [|inversion H; auto|inversion H; auto].
    destruct (acceptable t g); cbn [negb] in H; [|inversion H; auto].
    destruct (g_syn g); [inversion H; auto|]. destruct (g_ack g); [|inversion H; auto].
    right. split; [reflexivity|]. split; [discriminate|]. do 4 (split; [reflexivity|]). left. inversion H.
    destruct (tst_eqb _ _); [reflexivity|apply process_ts_st].
Qed.

(** ** One slot *)
Lemma addressed_conn t g : addressed t g = true -> conn_state (k_st t) = true -> same_connection t g.
Proof.
  unfold addressed, same_connection. intros H HC. rewrite HC in H. cbn [negb orb] in H.
  apply andb_prop in H as [H H1]. apply andb_prop in H as [H H2]. apply andb_prop in H1 as [H1 H3]. apply andb_prop in H1 as [H1 H4].
  apply orb_prop in H3 as [H3|H3]; lia.
Qed.
Lemma addressed_port t g : addressed t g = true -> k_lport t = g_dport g /\ k_live t = true.
Proof. unfold addressed. intros H. apply andb_prop in H as [H _]. apply andb_prop in H as [H H1]. apply andb_prop in H as [H2 _]. split; [lia|exact H2]. Qed.

Lemma synsent_synack_st t g : k_st (synsent_synack t g) = ESTABLISHED.
Proof. unfold synsent_synack. rewrite process_ts_st. reflexivity. Qed.

Lemma sync_input_established env i t g t' o s : k_st t = ESTABLISHED -> g_syn g = true -> sync_input env i t g = Some (t', o, s) -> t' = t.
Proof.
  intros HS HY H. destruct (sync_input_st _ _ _ _ _ _ _ H) as [E|(_ & _ & _ & _ & E & _)]; [exact E|congruence].
Qed.

(** What the processing of a segment by a socket slot amounts to; [t0] is the socket after
    option and window processing. *)
Lemma sock_input_cases N env others i t g t' o s : 1 < N <= 1073741824 -> sk_inv N t -> seg_ok g -> addressed t g = true ->
  sock_input env others i t g = Some (t', o, s) -> k_st t' <> k_st t -> seg_edge t g (k_st t) (k_st t').
Proof.
  intros HN HI HG HA H HC. unfold sock_input in H. pose proof (addressed_port t g HA) as (HP & HV).
  destruct (tst_eqb (k_st t) LISTEN && g_rst g) eqn:E1; [inversion H; congruence|].
  destruct (tst_eqb (k_st t) LISTEN && g_ack g) eqn:E2; [inversion H; congruence|].
  destruct HI as (I1 & I2 & I3 & I4 & I5 & I6 & I7). pose proof HG as (G1 & G2 & G3 & G4).
  assert (S0 : k_st (peer_window (syn_options t g) g) = k_st t) by (destruct (pre_any t g) as (w & oo & c & ts & ->); reflexivity).
  assert (U0 : k_una (peer_window (syn_options t g) g) = k_una t /\ k_seq (peer_window (syn_options t g) g) = k_seq t
     /\ k_ack (peer_window (syn_options t g) g) = k_ack t /\ k_lsn (peer_window (syn_options t g) g) = k_lsn t) by (destruct (pre_any t g) as (w & oo & c & ts & ->); repeat split).
  cbv zeta in H. destruct (g_rst g) eqn:ER.
  { (* RST *)
    destruct (rst_input i (peer_window (syn_options t g) g) g) as [[t2 o2] s2] eqn:EI. inversion H; subst t2 o2 s2.
    destruct (rst_input_cases _ _ _ _ _ _ EI) as (_ & HR). destruct U0 as (U1 & U2 & U3 & U4). rewrite S0, U1, U2, U3, U4 in HR.
    destruct HR as [->|[(A & B & C & ->)|[(A & B & C & D)|[(A & B & C & ->)|(A & A2 & B & ->)]]]].
    - rewrite S0 in HC. congruence.
    - cbn. rewrite A. apply E_rst_listener; auto. apply addressed_conn; [exact HA|rewrite A; reflexivity].
    - assert (E : k_st t' = CLOSED) by (destruct D as [->| ->]; [reflexivity|apply close_socket_st]). rewrite E, A. apply E_rst; auto; try discriminate. apply addressed_conn; [exact HA|rewrite A; reflexivity].
    - rewrite close_socket_st, A. apply E_rst_syn_sent; auto; [apply addressed_conn; [exact HA|rewrite A; reflexivity]|]. split; [exact B|].
      rewrite <- (I6 (or_introl A)) in C. apply synsent_ack_exact in C; [exact C|exact I3|exact G2].
    - rewrite close_socket_st in *. destruct (conn_state (k_st t)) eqn:EC; [|destruct (k_st t); try discriminate; congruence].
      apply E_rst; auto. apply addressed_conn; assumption. }
  destruct (tst_eqb (k_st (peer_window (syn_options t g) g)) SYN_SENT && g_ack g && _) eqn:E3; [inversion H; congruence|].
  destruct (g_syn g && tst_eqb (k_st (peer_window (syn_options t g) g)) LISTEN) eqn:E4.
  { apply andb_prop in E4 as [E4 E5]. rewrite S0 in E5. rewrite E5 in E2. cbn [andb] in E2. apply tst_eqb_true in E5.
    destruct (listen_syn env others _ g) as [t2|] eqn:EL; [|inversion H; congruence]. inversion H; subst t2 o s.
    assert (k_st t' = SYN_RCVD).
    { unfold listen_syn in EL. destruct (g_dst g =? 0); [discriminate|]. destruct (negb _ && _); [discriminate|]. destruct (dup_conn _ _ _); [discriminate|].
      destruct (negb (e_local env (g_dst g))); [discriminate|]. inversion EL. cbn [ctrl_start set_tm k_st]. rewrite process_ts_st. reflexivity. }
    rewrite E5, H0. apply E_listen_syn; auto. }
  destruct (g_syn g && tst_eqb (k_st (peer_window (syn_options t g) g)) SYN_SENT && g_ack g && negb (g_fin g) && negb (g_xflags g)) eqn:E5.
  { (* SYN-ACK *)
    assert (K : g_syn g = true /\ k_st t = SYN_SENT /\ g_ack g = true).
    { apply andb_prop in E5 as [E5 _]. apply andb_prop in E5 as [E5 _]. apply andb_prop in E5 as [E5 EA]. apply andb_prop in E5 as [E5 ES]. rewrite S0 in ES. apply tst_eqb_true in ES. auto. }
    destruct K as (K1 & K2 & K3). destruct U0 as (U1 & U2 & _). rewrite S0, K2, K3, U1, U2 in E3. cbn [tst_eqb andb] in E3.
    rewrite <- (I6 (or_introl K2)) in E3. apply synsent_ack_exact in E3; [|exact I3|exact G2].
    rewrite synsent_synack_st in H. destruct (sync_input env i (synsent_synack _ g) g) as [[[t2 o2] s2]|] eqn:EI; cbn [obind fst snd] in H; [|discriminate].
    inversion H; subst t2 o s. apply sync_input_established in EI; [|apply synsent_synack_st|exact K1]. subst t'. rewrite K2, synsent_synack_st. apply E_synack; auto.
    - apply addressed_conn; [exact HA|rewrite K2; reflexivity].
    - split; [exact K3|exact E3]. }
  rewrite S0 in H. clear E5.
  destruct (tst_eqb (k_st t) SYN_RCVD) eqn:E6.
  { apply tst_eqb_true in E6. rewrite E6 in H.
    destruct (synrcvd_input i (peer_window (syn_options t g) g) g) as [[[t2 o2] s2]|] eqn:EI; cbn [obind fst snd] in H; [|discriminate]. inversion H; subst t2 o s.
    destruct (synrcvd_st _ _ _ _ _ _ (eq_trans S0 E6) EI) as (_ & [->|(A & B & C & D)]); [congruence|].
    destruct (pre_sync t g ltac:(congruence) ltac:(congruence)) as (w & EP & _). rewrite EP in B, C. 
    assert (B' : seq_acceptable t g) by (apply (acceptable_spec N) in B; [exact B|exact HN|exact I1|exact HG]).
    assert (C' : acks_syn t g) by (split; [exact A|]; cbn [k_una set_win] in C; rewrite inc1 in C by exact I3; exact C).
    assert (SC : same_connection t g) by (apply addressed_conn; [exact HA|rewrite E6; reflexivity]).
    rewrite E6. destruct D as [->|[-> D]]; [apply E_final_ack|apply E_final_ack_fin]; auto. }
  assert (H' : exists o2, sync_input env i (peer_window (syn_options t g) g) g = Some (t', o2, s)).
  { destruct (k_st t) eqn:ES; try discriminate E6;
    (destruct (sync_input env i (peer_window (syn_options t g) g) g) as [[[t2 o2] s2]|] eqn:EI; cbn [obind fst snd] in H; [|discriminate]; inversion H; eauto). }
  destruct H' as (o2 & H'). destruct (sync_input_st _ _ _ _ _ _ _ H') as [->|(A & A2 & B & C & D & F & K)]; [congruence|].
  rewrite S0 in A, A2.
  assert (NL : k_st t <> LISTEN /\ k_st t <> SYN_SENT) by (split; intros E; rewrite E in A; discriminate).
  destruct (pre_sync t g (proj1 NL) (proj2 NL)) as (w & EP & _). rewrite EP in B, C, K.
  assert (SC : same_connection t g) by (apply addressed_conn; [exact HA|destruct (k_st t); try reflexivity; discriminate]).
  assert (VS : valid_sync t g).
  { do 3 (split; [assumption|]). split; [apply (acceptable_spec N) in C; [exact C|exact HN|exact I1|exact HG]|].
    apply (paws_spec N) in B; [exact B| |exact HG]. split; [exact I1|]. split; [exact I2|]. split; [exact I3|]. split; [exact I4|]. split; [exact I5|]. split; [exact I6|exact I7]. }
  assert (FC : fin_cov (set_win t w (k_wson t) (k_wsc t)) g = true <-> acks_fin t g).
  { unfold fin_cov, acks_fin. cbn [k_last set_win]. rewrite at_or_after_inc by assumption. tauto. }
  rewrite tcp_ack_st in K. cbn [k_st set_win] in K.
  destruct (fin_cov (set_win t w (k_wson t) (k_wsc t)) g) eqn:EF.
  - assert (AF : acks_fin t g) by (apply FC; reflexivity).
    destruct (k_st t) eqn:ES; try discriminate A; try congruence;
      destruct K as [K|(KF & [(K1 & K2)|[(K1 & K2)|(K1 & K2)]])]; try discriminate K1; try congruence; rewrite ?K, ?K2; first [now constructor | congruence].
  - assert (AF : ~ acks_fin t g) by (intros X; apply FC in X; discriminate).
    destruct (k_st t) eqn:ES; try discriminate A; try congruence;
      destruct K as [K|(KF & [(K1 & K2)|[(K1 & K2)|(K1 & K2)]])]; try discriminate K1; try congruence; rewrite ?K, ?K2; first [now constructor | congruence].
Qed.

(** ** The table *)
Lemma input_loop_nth env g : forall after before tbl' o m, input_loop env g before after = Some (tbl', o, m) ->
  length tbl' = (length before + length after)%nat /\
  (forall i, (i < length before)%nat -> nth_error tbl' i = nth_error before i) /\
  (forall i t, nth_error after i = Some t -> exists t', nth_error tbl' (length before + i) = Some t' /\
     (t' = t \/ (addressed t g = true /\ exists others oo s, sock_input env others (length before + i) t g = Some (t', oo, s)))).
Proof.
  induction after as [|t after IH]; intros before tbl' o m H; cbn [input_loop] in H.
  - inversion H; subst. cbn [length]. split; [lia|]. split; [auto|]. intros i t Hn. destruct i; discriminate.
  - destruct (addressed t g) eqn:EA.
    + destruct (sock_input env (before ++ after) (length before) t g) as [[[t1 o1] s1]|] eqn:ES; cbn [obind fst snd] in H; [|discriminate].
      destruct s1.
      * inversion H; subst. rewrite app_length. cbn [length]. split; [lia|]. split; [intros i Hi; apply nth_error_app1; exact Hi|].
        intros i t0 Hn. rewrite nth_error_app2 by lia. replace (length before + i - length before)%nat with i by lia.
        destruct i; cbn [nth_error] in *; [inversion Hn; subst; exists t1; split; [reflexivity|]; right; split; [exact EA|]; rewrite Nat.add_0_r; eauto|exists t0; auto].
      * destruct (input_loop env g (before ++ [t1]) after) as [[[tb2 o2] m2]|] eqn:EL; cbn [obind fst snd] in H; [|discriminate]. inversion H; subst.
        destruct (IH _ _ _ _ EL) as (H1 & H2 & H3). rewrite app_length in *. cbn [length] in *. split; [lia|]. split.
        { intros i Hi. rewrite H2 by lia. apply nth_error_app1; exact Hi. }
        intros i t0 Hn. destruct i; cbn [nth_error] in Hn.
        { inversion Hn; subst. exists t1. rewrite Nat.add_0_r. split; [rewrite H2 by lia; rewrite nth_error_app2 by lia; rewrite Nat.sub_diag; reflexivity|]. right. split; [exact EA|]. rewrite ?Nat.add_0_r. eauto. }
        destruct (H3 i t0 Hn) as (t' & E1 & E2). exists t'. replace (length before + S i)%nat with (length before + 1 + i)%nat by lia. auto.
    + destruct (IH _ _ _ _ H) as (H1 & H2 & H3). rewrite app_length in *. cbn [length] in *. split; [lia|]. split.
      { intros i Hi. rewrite H2 by lia. apply nth_error_app1; exact Hi. }
      intros i t0 Hn. destruct i; cbn [nth_error] in Hn.
      { inversion Hn; subst. exists t0. rewrite Nat.add_0_r. split; [rewrite H2 by lia; rewrite nth_error_app2 by lia; rewrite Nat.sub_diag; reflexivity|auto]. }
      destruct (H3 i t0 Hn) as (t' & E1 & E2). exists t'. replace (length before + S i)%nat with (length before + 1 + i)%nat by lia. auto.
Qed.

Lemma tcp_input_nth env tbl g tbl' o : tcp_input env tbl g = Some (tbl', o) ->
  length tbl' = length tbl /\
  (forall i t, nth_error tbl i = Some t -> exists t', nth_error tbl' i = Some t' /\
     (t' = t \/ (addressed t g = true /\ exists others oo s, sock_input env others i t g = Some (t', oo, s)))).
Proof.
  unfold tcp_input. destruct (input_loop env g [] tbl) as [[[tb o1] m]|] eqn:E; cbn [obind fst snd]; [|discriminate].
  intros H. inversion H; subst. destruct (input_loop_nth _ _ _ _ _ _ _ E) as (H1 & _ & H3). split; [exact H1|]. intros i t Hn. destruct (H3 i t Hn) as (t' & K). exists t'. exact K.
Qed.

(** ** Invariants *)
Definition env_ok (N : Z) (env : tenv) : Prop := is_u32 (e_isn env) /\ zlen (e_rxmem env) = N.
(** Timers: a half-open connection and one in FIN_WAIT_2 always have a running timer. *)
Definition tm_inv (t : sk) : Prop :=
  (k_st t = SYN_SENT \/ k_st t = SYN_RCVD -> k_tmr t = true) /\
  (k_st t = FIN_WAIT_2 -> k_tmr t = true /\ k_fw2 t = true) /\
  (k_st t = LISTEN \/ k_st t = SYN_SENT \/ k_st t = SYN_RCVD -> k_pre t = false /\ k_fw2 t = false) /\
  (k_st t = CLOSED -> k_evc t = false -> k_pre t = false /\ k_fw2 t = false) /\
  (k_cnp t = true -> k_st t = CLOSED /\ k_evc t = true) /\ 0 <= k_retr t.
Definition sk_good (N : Z) (t : sk) : Prop := sk_inv N t /\ tm_inv t.

Lemma rx_good_new N m : 1 < N <= 1073741824 -> zlen m = N -> rx_good N (rx_new m).
Proof.
  intros HN HM. left. split; [exists []; apply QWF_init; [lia|reflexivity]|]. unfold rx_new. cbn [rx_q rx_ack rx_ooo rx_sack queue_init q_size].
  split; [lia|]. split; [unfold is_u32; lia|]. split; [reflexivity|]. split; [repeat constructor; cbn; discriminate|cbn; lia].
Qed.
Lemma rx_good_set_ack N r a : rx_good N r -> is_u32 a -> rx_good N (mkRx (rx_q r) a (rx_ooo r) (rx_sack r)).
Proof. intros [(A & B & C & D)|(A & B)] Ha; [left|right]; cbn; auto. split; [exact A|]. split; [exact B|]. split; [exact Ha|exact D]. Qed.
Lemma rx_good_zero N : rx_good N rx_zero.
Proof. right. split; [reflexivity|]. unfold is_u32; cbn; lia. Qed.
Lemma recv_good N t g rx : 1 < N <= 1073741824 -> rx_good N (k_rx t) -> seg_ok g -> acceptable t g = true -> rx = k_rx t -> (0 <? zlen (g_data g)) = true ->
  exists rx' acks, tcp_recv rx (g_seq g) (g_data g) = Some (rx', acks) /\ rx_good N rx'.
Proof.
  intros HN HR (G1 & _) HA -> HD. destruct HR as [HS|(HS & _)].
  - destruct (tcp_recv_safe _ _ (g_seq g) (g_data g) HS G1) as (r & a & E & S & _). exists r, a. split; [exact E|left; exact S].
  - exfalso. unfold acceptable, tcp_segment_acceptable, queue_space in HA. rewrite HS in HA. change (0 <=? 1) with true in HA. cbn in HA. destruct (g_len g =? 0) eqn:EL; [|discriminate].
    unfold g_len in EL. destruct (g_syn g), (g_fin g); lia.
Qed.

Lemma u32_0 : is_u32 0. Proof. unfold is_u32; lia. Qed.
Lemma close_good N t : sk_good N (close_socket t).
Proof.
  pose proof u32_0. pose proof (rx_good_zero N). unfold close_socket, sk_good, sk_inv, tm_inv.
  destruct (k_cb t); cbn; (split; [split; [assumption|]|]); intuition (try discriminate; try assumption).
Qed.
Lemma ts_good N t o v l : sk_good N t -> is_u32 l -> sk_good N (set_ts t o v l).
Proof. unfold sk_good, sk_inv, tm_inv; cbn. tauto. Qed.
Lemma win_good N t w o c : sk_good N t -> sk_good N (set_win t w o c).
Proof. unfold sk_good, sk_inv, tm_inv; cbn. tauto. Qed.
Lemma process_ts_good N t g : sk_good N t -> sk_good N (process_ts t g).
Proof. intros H. destruct (process_ts_eq t g) as (o & v & l & -> & _ & HL). apply ts_good; [exact H|]. apply HL. apply H. Qed.
Lemma pre_good N t g : sk_good N t -> sk_good N (peer_window (syn_options t g) g).
Proof. intros H. destruct (pre_any t g) as (w & o & c & ts & ->). apply ts_good; [apply win_good; exact H|apply H]. Qed.

Ltac sk_tac := unfold sk_good, sk_inv, tm_inv in *; cbn in *; intuition (try congruence; try discriminate; try assumption; try lia; eauto using inc_u32, u32_0, rx_good_set_ack).

Lemma ack_good N b t g : sk_good N t -> seg_ok g -> sync_state (k_st t) = true -> sk_good N (tcp_ack b t g).
Proof.
  intros HI (G1 & G2 & _) HS. unfold tcp_ack. destruct (tst_eqb (k_st t) LAST_ACK && _) eqn:E.
  - destruct (k_cb _) eqn:EC; [|apply close_good]. sk_tac.
  - assert (A : sk_good N (ack_state t g) /\ sync_state (k_st (ack_state t g)) = true).
    { split.
      - unfold ack_state. destruct (k_st t) eqn:ES; try exact HI; (destruct (tcp_seq_leq _ _); [|exact HI]); sk_tac.
      - rewrite ack_state_st. destruct (k_st t); try discriminate; try reflexivity; destruct (fin_cov t g); reflexivity. }
    destruct A as (A1 & A2). set (u := ack_state t g) in *. clearbody u. clear HI HS E t.
    assert (NS : k_st u <> SYN_SENT /\ k_st u <> SYN_RCVD /\ k_st u <> LISTEN /\ k_st u <> CLOSED) by (destruct (k_st u); repeat split; congruence || discriminate).
    unfold ack_una. destruct (_ && _ && _); [|exact A1]. destruct (negb (k_fw2 u) && negb (k_pre u)) eqn:EF; [|sk_tac].
    apply andb_prop in EF as [EF _]. sk_tac. all: destruct (k_fw2 u); cbn in *; congruence.
Qed.
Lemma tcp_ack_rx b t g : k_st t <> LAST_ACK -> k_rx (tcp_ack b t g) = k_rx t.
Proof.
  intros H. unfold tcp_ack. apply tst_eqb_false in H. rewrite H. cbn [andb]. rewrite ack_una_rx. unfold ack_state. destruct (k_st t); try reflexivity; destruct (tcp_seq_leq _ _); reflexivity.
Qed.
Lemma set_rx_good N t r : sk_good N t -> rx_good N r -> sk_good N (set_rx t r).
Proof. sk_tac. Qed.
Lemma fin_good N i t g t' o s : sk_good N t -> seg_ok g -> sync_state (k_st t) = true -> fin_input i t g = (t', o, s) -> sk_good N t'.
Proof.
  intros HI HG HS H. unfold fin_input in H. destruct (g_fin g); [|inversion H; subst; exact HI].
  destruct (_ || _); inversion H; subst; [exact HI|]. clear H.
  assert (R : forall a b n, is_u32 (if 0 <? n then tcp_seq_inc a 1 else tcp_seq_inc b 1)) by (intros; destruct (0 <? n); apply inc_u32).
  specialize (R (tcp_seq_inc (g_seq g) (zlen (g_data g))) (g_seq g) (zlen (g_data g))).
  set (a := if 0 <? zlen (g_data g) then _ else _) in *. clearbody a.
  destruct (k_st t) eqn:ES; try discriminate; sk_tac.
Qed.
Lemma synrcvd_good N i t g : 1 < N <= 1073741824 -> sk_good N t -> seg_ok g -> k_st t = SYN_RCVD ->
  exists t' o s, synrcvd_input i t g = Some (t', o, s) /\ sk_good N t'.
Proof.
  intros HN HI HG HS. unfold synrcvd_input.
  destruct (g_syn g && negb (g_ack g) && _); [do 3 eexists; split; [reflexivity|exact HI]|].
  destruct (negb (g_ack g)); [do 3 eexists; split; [reflexivity|exact HI]|].
  destruct (acceptable t g) eqn:EA; cbn [negb]; [|do 3 eexists; split; [reflexivity|exact HI]].
  destruct (negb _); [do 3 eexists; split; [reflexivity|exact HI]|].
  set (t3 := set_snd _ (g_ackn g) (g_ackn g) (k_last t)).
  assert (H3 : sk_good N t3 /\ k_rx t3 = k_rx t /\ k_st t3 = ESTABLISHED).
  { unfold t3. destruct HG as (G1 & G2 & _). cbn [ctrl_stop set_tm set_st k_lsn]. destruct (k_lsn t); sk_tac. }
  destruct H3 as (H3 & HR & H4). clearbody t3.
  assert (RX : exists rx acks, (if 0 <? zlen (g_data g) then tcp_recv (k_rx t3) (g_seq g) (g_data g) else Some (k_rx t3, [])) = Some (rx, acks) /\ rx_good N rx).
  { destruct (0 <? zlen (g_data g)) eqn:ED; [apply (recv_good N t g); auto; apply HI|]. do 2 eexists. split; [reflexivity|]. rewrite HR. apply HI. }
  destruct RX as (rx & acks & -> & HX). cbn [obind].
  pose proof (set_rx_good N t3 rx H3 HX) as H5. assert (H6 : k_st (set_rx t3 rx) = ESTABLISHED) by exact H4. set (u := set_rx t3 rx) in *. clearbody u.
  destruct (g_fin g); [|do 3 eexists; split; [reflexivity|exact H5]].
  destruct (k_ack u =? _); do 3 eexists; (split; [reflexivity|]); [|exact H5]. sk_tac.
Qed.
Lemma sync_good N env i t g : 1 < N <= 1073741824 -> sk_good N t -> seg_ok g ->
  exists t' o s, sync_input env i t g = Some (t', o, s) /\ sk_good N t'.
Proof.
  intros HN HI HG. unfold sync_input.
  assert (D : data_state (k_st t) = true -> exists t' o s,
    match paws_check t g with
    | PawsAckDrop => Some (t, [OAck i], false)
    | PawsDrop => Some (t, [], false)
    | PawsOk =>
      if negb (acceptable t g) then Some (t, [OAck i], false)
      else if g_syn g then Some (t, [OAck i], false)
      else if negb (g_ack g) then Some (t, [], false)
      else
        let t1 := process_ts (tcp_ack (e_infl env) t g) g in
        if (0 <? zlen (g_data g)) && tst_eqb (k_st t1) CLOSING then Some (t1, [], true)
        else
          do (rx, acks) <- (if (0 <? zlen (g_data g)) && rx_state (k_st t1) then tcp_recv (k_rx t1) (g_seq g) (g_data g) else Some (k_rx t1, []));
          let '(t2, o, stop) := fin_input i (set_rx t1 rx) g in
          Some (t2, map (fun _ => OAck i) acks ++ o, stop)
    end = Some (t', o, s) /\ sk_good N t').
  { intros HD. destruct (paws_check t g); [|do 3 eexists; split; [reflexivity|exact HI]|do 3 eexists; split; [reflexivity|exact HI]].
    destruct (acceptable t g) eqn:EA; cbn [negb]; [|do 3 eexists; split; [reflexivity|exact HI]].
    destruct (g_syn g); [do 3 eexists; split; [reflexivity|exact HI]|]. destruct (negb (g_ack g)); [do 3 eexists; split; [reflexivity|exact HI]|].
    cbv zeta.
    assert (SS : sync_state (k_st t) = true) by (unfold sync_state; rewrite HD; reflexivity).
    pose proof (process_ts_good N _ g (ack_good N (e_infl env) t g HI HG SS)) as H1.
    assert (R1 : k_rx (process_ts (tcp_ack (e_infl env) t g) g) = k_rx t).
    { destruct (process_ts_eq (tcp_ack (e_infl env) t g) g) as (o & v & l & -> & _). cbn [k_rx set_ts]. apply tcp_ack_rx. intros E; rewrite E in HD; discriminate. }
    assert (S1 : sync_state (k_st (process_ts (tcp_ack (e_infl env) t g) g)) = true).
    { rewrite process_ts_st, tcp_ack_st. destruct (k_st t); try discriminate; try reflexivity; destruct (fin_cov t g); reflexivity. }
    set (u := process_ts (tcp_ack (e_infl env) t g) g) in *. clearbody u.
    destruct (_ && tst_eqb (k_st u) CLOSING); [do 3 eexists; split; [reflexivity|exact H1]|].
    assert (RX : exists rx acks, (if (0 <? zlen (g_data g)) && rx_state (k_st u) then tcp_recv (k_rx u) (g_seq g) (g_data g) else Some (k_rx u, [])) = Some (rx, acks) /\ rx_good N rx).
    { destruct (0 <? zlen (g_data g)) eqn:ED; [|do 2 eexists; split; [reflexivity|rewrite R1; apply HI]].
      destruct (rx_state (k_st u)); cbn [andb]; [apply (recv_good N t g); auto; apply HI|]. do 2 eexists; split; [reflexivity|rewrite R1; apply HI]. }
    destruct RX as (rx & acks & -> & HX). cbn [obind].
    destruct (fin_input i (set_rx u rx) g) as [[t2 o2] s2] eqn:EF. do 3 eexists; split; [reflexivity|].
    eapply fin_good; [|exact HG| |exact EF]; [apply set_rx_good; assumption|exact S1]. }
  destruct (k_st t) eqn:ES; try (do 3 eexists; split; [reflexivity|exact HI]); try (apply D; reflexivity).
  - destruct (paws_check t g); do 3 eexists; (split; [reflexivity|exact HI]).
  - destruct (paws_check t g); [|do 3 eexists; split; [reflexivity|exact HI]|do 3 eexists; split; [reflexivity|exact HI]].
    destruct (negb (acceptable t g)); [do 3 eexists; split; [reflexivity|exact HI]|].
    destruct (g_syn g); [do 3 eexists; split; [reflexivity|exact HI]|]. destruct (g_ack g); [|do 3 eexists; split; [reflexivity|exact HI]].
    do 3 eexists; split; [reflexivity|]. assert (A : sk_good N (tcp_ack (e_infl env) t g)) by (apply ack_good; auto; rewrite ES; reflexivity).
    destruct (tst_eqb _ _); [exact A|apply process_ts_good; exact A].
Qed.
Lemma rst_good N i t g t' o s : sk_good N t -> rst_input i t g = (t', o, s) -> sk_good N t'.
Proof.
  intros HI H. destruct (rst_input_cases _ _ _ _ _ _ H) as (_ & [->|[(A & B & C & ->)|[(A & B & C & D)|[(A & B & C & ->)|(A & A2 & B & ->)]]]]);
    [exact HI| | |apply close_good|apply close_good].
  - sk_tac.
  - destruct D as [->| ->]; [|apply close_good]. sk_tac.
Qed.
Lemma sock_input_good N env others i t g : 1 < N <= 1073741824 -> env_ok N env -> sk_good N t -> seg_ok g -> k_live t = true ->
  exists t' o s, sock_input env others i t g = Some (t', o, s) /\ sk_good N t'.
Proof.
  intros HN HE HI HG HV. unfold sock_input.
  destruct (tst_eqb (k_st t) LISTEN && g_rst g); [do 3 eexists; split; [reflexivity|exact HI]|].
  destruct (tst_eqb (k_st t) LISTEN && g_ack g); [do 3 eexists; split; [reflexivity|exact HI]|].
  pose proof (pre_good N t g HI) as H0.
  assert (V0 : k_live (peer_window (syn_options t g) g) = true) by (destruct (pre_any t g) as (w & o & c & ts & ->); exact HV).
  set (u := peer_window (syn_options t g) g) in *. clearbody u. cbv zeta.
  destruct (g_rst g).
  { destruct (rst_input i u g) as [[t2 o2] s2] eqn:ER. do 3 eexists; split; [reflexivity|]. eapply rst_good; eassumption. }
  destruct (tst_eqb (k_st u) SYN_SENT && g_ack g && _); [do 3 eexists; split; [reflexivity|exact H0]|].
  destruct (g_syn g && tst_eqb (k_st u) LISTEN) eqn:EL.
  { destruct (listen_syn env others u g) as [t2|] eqn:E2; do 3 eexists; (split; [reflexivity|]); [|exact H0].
    unfold listen_syn in E2. destruct (g_dst g =? 0); [discriminate|]. destruct (negb _ && _); [discriminate|]. destruct (dup_conn _ _ _); [discriminate|].
    destruct (negb (e_local env (g_dst g))); [discriminate|]. apply andb_prop in EL as [_ EL]. apply tst_eqb_true in EL. destruct HE as (HE1 & HE2).
    set (v := set_snd _ (e_isn env) (e_isn env) (k_last u)) in E2.
    inversion E2; subst t2. clear E2. destruct (process_ts_eq v g) as (o & b & l & -> & _ & HL). unfold v in *. clear v.
    cbn [k_lts set_snd set_ack set_addr set_st set_rx] in HL. sk_tac. }
  assert (H2 : exists v o1, (if g_syn g && tst_eqb (k_st u) SYN_SENT && g_ack g && negb (g_fin g) && negb (g_xflags g) then (synsent_synack u g, [OAck i]) else (u, [])) = (v, o1) /\ sk_good N v).
  { destruct (g_syn g && tst_eqb (k_st u) SYN_SENT && g_ack g && negb (g_fin g) && negb (g_xflags g)) eqn:ES; do 2 eexists; (split; [reflexivity|]); [|exact H0].
    apply andb_prop in ES as [ES _]. apply andb_prop in ES as [ES _]. apply andb_prop in ES as [ES _]. apply andb_prop in ES as [_ ES]. apply tst_eqb_true in ES.
    unfold synsent_synack. apply process_ts_good. destruct HG as (G1 & G2 & _). sk_tac. }
  destruct H2 as (v & o1 & -> & H2).
  assert (H3 : exists t' o s, (match k_st v with SYN_RCVD => synrcvd_input i v g | _ => sync_input env i v g end) = Some (t', o, s) /\ sk_good N t').
  { destruct (k_st v) eqn:E; try (apply sync_good; assumption). apply synrcvd_good; assumption. }
  destruct H3 as (t' & o & s & -> & H3). cbn [obind fst snd]. do 3 eexists; split; [reflexivity|exact H3].
Qed.

(** ** All events *)
(** What may be assumed of an event: wire fields have their widths, lengths are 32-bit, and
    the application does not call listen or connect on a socket whose closing it has not
    been told about yet (CB_EVENT_CLOSED pending). *)
Definition ev_ok (tbl : list sk) (e : ev) : Prop :=
  match e with
  | ESeg g => seg_ok g
  | ERecv _ _ len => 0 <= len < 4294967296
  | EListen i _ | EConnect i _ _ _ _ _ _ _ => forall t, nth_error tbl i = Some t -> k_st t = CLOSED -> k_evc t = false
  | _ => True
  end.

Lemma nth_set_slot tbl i t j : nth_error (set_slot tbl i t) j = if (i =? j)%nat && (j <? length tbl)%nat then Some t else nth_error tbl j.
Proof.
  unfold set_slot. revert i j. induction tbl as [|a tbl IH]; intros i j; [destruct i, j; cbn; rewrite ?andb_false_r; reflexivity|].
  destruct i, j; cbn [set_nth nth_error]; try reflexivity. rewrite IH. reflexivity.
Qed.
Lemma free_slot_spec tbl : forall i j, free_slot tbl i = Some j -> exists t, nth_error tbl (j - i) = Some t /\ k_live t = false /\ (i <= j)%nat.
Proof.
  induction tbl as [|t tbl IH]; intros i j H; cbn [free_slot] in H; [discriminate|].
  destruct (k_live t) eqn:E.
  - destruct (IH _ _ H) as (t' & A & B & C). exists t'. replace (j - i)%nat with (S (j - S i)) by lia. cbn [nth_error]. split; [exact A|split; [exact B|lia]].
  - inversion H; subst. exists t. rewrite Nat.sub_diag. cbn. auto.
Qed.
Lemma Forall_nth {A} (P : A -> Prop) l : Forall P l <-> (forall i t, nth_error l i = Some t -> P t).
Proof.
  split; [intros H i t E; eapply Forall_forall; [exact H|]; eapply nth_error_In; exact E|].
  induction l as [|a l IH]; intros H; constructor; [apply (H 0%nat); reflexivity|]. apply IH. intros i t E. apply (H (S i)). exact E.
Qed.
Lemma set_slot_good N tbl i t : Forall (sk_good N) tbl -> sk_good N t -> Forall (sk_good N) (set_slot tbl i t).
Proof.
  rewrite !Forall_nth. intros H Ht j u E. rewrite nth_set_slot in E. destruct (_ && _); [inversion E; subst; exact Ht|eapply H; exact E].
Qed.

(** A step of the events that concern one slot. *)
Lemma on_slot_nth tbl i f tbl' o : on_slot tbl i f = Some (tbl', o) -> o = [] /\
  (tbl' = tbl \/ exists t t', nth_error tbl i = Some t /\ k_live t = true /\ f t = Some t' /\ tbl' = set_slot tbl i t').
Proof.
  unfold on_slot. destruct (nth_error tbl i) as [t|] eqn:E; [|intros H; inversion H; auto].
  destruct (k_live t) eqn:EV; [|intros H; inversion H; auto].
  destruct (f t) as [t'|] eqn:EF; cbn [obind]; [|discriminate]. intros H; inversion H; split; [reflexivity|]. right. exists t, t'. auto.
Qed.
Lemma on_slot_good N tbl i f : Forall (sk_good N) tbl -> (forall t, nth_error tbl i = Some t -> k_live t = true -> sk_good N t -> exists t', f t = Some t' /\ sk_good N t') ->
  exists tbl' o, on_slot tbl i f = Some (tbl', o) /\ Forall (sk_good N) tbl'.
Proof.
  intros HF Hf. unfold on_slot. destruct (nth_error tbl i) as [t|] eqn:E; [|eauto].
  destruct (k_live t) eqn:EV; [|eauto]. pose proof HF as HF2. rewrite Forall_nth in HF2. destruct (Hf t eq_refl EV (HF2 _ _ E)) as (t' & -> & G). cbn [obind]. do 2 eexists. split; [reflexivity|]. apply set_slot_good; assumption.
Qed.

Lemma revert_good N m isn t : 1 < N <= 1073741824 -> zlen m = N -> is_u32 isn -> k_live t = true -> k_cnp t = false -> sk_good N (revert_to_listen m isn t).
Proof. intros HN HM HI HV HC. pose proof (rx_good_new N m HN HM). pose proof u32_0. unfold revert_to_listen. sk_tac. Qed.
Lemma cnp_false N t : sk_good N t -> k_st t <> CLOSED -> k_cnp t = false.
Proof. intros (_ & _ & _ & _ & _ & H & _) HC. destruct (k_cnp t); [destruct (H eq_refl); congruence|reflexivity]. Qed.
Lemma new_good N m : 1 < N <= 1073741824 -> zlen m = N -> sk_good N (new_sk m).
Proof. intros HN HM. pose proof (rx_good_new N m HN HM). pose proof u32_0. unfold new_sk. sk_tac. Qed.
Lemma sk0_good N : sk_good N sk0.
Proof. pose proof u32_0. pose proof (rx_good_zero N). unfold sk0. sk_tac. Qed.
Lemma clone_good N m ts : 1 < N <= 1073741824 -> zlen m = N -> sk_good N ts -> sk_good N (clone m ts).
Proof.
  intros HN HM HI. pose proof (rx_good_new N m HN HM) as HR. assert (HA : is_u32 (k_ack ts)) by (apply (rx_good_ack N); apply HI).
  pose proof (rx_good_set_ack N _ _ HR HA) as HR2. cbn [rx_new rx_ooo rx_sack rx_q] in HR2. pose proof u32_0. unfold clone. unfold k_ack in *. sk_tac.
Qed.

Lemma rto_good N env p gv r q t : 1 < N <= 1073741824 -> env_ok N env -> sk_good N t -> k_live t = true -> sk_good N (rto_cb env p gv r q t).
Proof.
  intros HN (HE1 & HE2) HI HV. unfold rto_cb.
  assert (RV : forall u, k_live u = k_live t -> k_cnp u = k_cnp t -> k_st t <> CLOSED -> sk_good N (revert_to_listen (e_rxmem env) (e_isn env) u))
    by (intros u Hu Hc Hs; pose proof (cnp_false N t HI Hs); apply revert_good; congruence).
  cbn [set_tm k_fw2 k_st k_pre k_lsn k_ctrl k_retr].
  destruct (k_fw2 t) eqn:E1.
  { destruct (tst_eqb (k_st t) FIN_WAIT_2) eqn:E2; [apply close_good|]. apply tst_eqb_false in E2. unfold fw2_stop. sk_tac. }
  destruct (k_pre t) eqn:E2.
  { destruct (tst_eqb (k_st t) ESTABLISHED && k_lsn t) eqn:EE.
    { apply andb_prop in EE as [EE _]. apply tst_eqb_true in EE. apply RV; [reflexivity|reflexivity|congruence]. }
    unfold pre_stop. sk_tac. }
  destruct (needs_ctrl _ p || k_ctrl t) eqn:EK.
  - destruct (negb (needs_ctrl _ p)) eqn:EN.
    + assert (NS : k_st t <> SYN_SENT /\ k_st t <> SYN_RCVD).
      { unfold needs_ctrl in EN. cbn [set_tm k_st] in EN. destruct (k_st t); split; congruence || discriminate. }
      unfold ctrl_stop. sk_tac.
    + destruct (CTRL_MAXRTX <=? k_retr t).
      * destruct (k_lsn t && tst_eqb (k_st t) SYN_RCVD) eqn:EE; [|apply close_good].
        apply andb_prop in EE as [_ EE]. apply tst_eqb_true in EE. apply RV; [reflexivity|reflexivity|congruence].
      * assert (NF : k_st t <> FIN_WAIT_2) by (intros E; unfold needs_ctrl in EN; cbn [set_tm k_st] in EN; rewrite E in EN; discriminate).
        destruct (k_st t) eqn:ES; try destruct q; unfold ctrl_start; sk_tac.
  - apply orb_false_iff in EK as [EK _]. unfold needs_ctrl in EK. cbn [set_tm k_st] in EK.
    destruct (k_st t) eqn:ES; try discriminate EK; try destruct gv; try apply close_good; sk_tac.
Qed.

Lemma step_good N env tbl e : 1 < N <= 1073741824 -> env_ok N env -> Forall (sk_good N) tbl -> ev_ok tbl e ->
  exists tbl' o, step env tbl e = Some (tbl', o) /\ Forall (sk_good N) tbl' /\ length tbl' = length tbl.
Proof.
  intros HN HE HF HO.
  assert (OS : forall i f, (forall t, nth_error tbl i = Some t -> k_live t = true -> sk_good N t -> exists t', f t = Some t' /\ sk_good N t') ->
     exists tbl' o, on_slot tbl i f = Some (tbl', o) /\ Forall (sk_good N) tbl' /\ length tbl' = length tbl).
  { intros i f Hf. destruct (on_slot_good N tbl i f HF Hf) as (tbl' & o & E & G). exists tbl', o. split; [exact E|]. split; [exact G|].
    destruct (on_slot_nth _ _ _ _ _ E) as (_ & [->|(t & t' & _ & _ & _ & ->)]); [reflexivity|]. unfold set_slot. apply set_nth_length. }
  pose proof HE as (HE1 & HE2).
  destruct e as [|i bip lip port rf|i a|i veto|i bad veto queued lip rip rport rnd|i queued veto|i queued|i n|i shift len|g|i p gv r q|i emb|i]; cbn [step].
  - destruct (free_slot tbl 0) as [i|]; [|eauto]. do 2 eexists. split; [reflexivity|]. split; [apply set_slot_good; [exact HF|apply new_good; assumption]|unfold set_slot; apply set_nth_length].
  - apply OS. intros t _ _ H. eexists; split; [reflexivity|]. destruct (_ && _); [|exact H]. sk_tac.
  - apply OS. intros t _ _ H. eexists; split; [reflexivity|]. sk_tac.
  - apply OS. intros t E HV H. eexists; split; [reflexivity|]. unfold sock_listen. destruct (k_st t) eqn:ES; try exact H. pose proof (HO t E ES) as HQ. destruct veto; cbn [fst]; sk_tac.
  - apply OS. intros t E HV H. eexists; split; [reflexivity|]. unfold sock_connect. destruct (k_st t) eqn:ES; try exact H. pose proof (HO t E ES) as HQ.
    destruct bad; [exact H|]. destruct veto; cbn [fst]; [sk_tac|]. destruct (negb (queued && negb (k_cnp t))); cbn [fst]; unfold ctrl_start; sk_tac.
  - destruct (nth_error tbl i) as [ts|] eqn:E; [|eauto]. pose proof HF as HF2. rewrite Forall_nth in HF2. pose proof (HF2 _ _ E) as HT.
    destruct (k_live ts) eqn:EV; cbn [negb]; [|eauto].
    destruct (tst_eqb (k_st ts) ESTABLISHED && k_lsn ts) eqn:EE.
    { apply andb_prop in EE as [EE _]. apply tst_eqb_true in EE. do 2 eexists; split; [reflexivity|]; split; [apply set_slot_good; [exact HF|apply revert_good; auto; eapply cnp_false; [exact HT|congruence]]|unfold set_slot; apply set_nth_length]. }
    destruct (tst_eqb (k_st ts) SYN_RCVD) eqn:ES; [|eauto]. apply tst_eqb_true in ES. destruct (free_slot tbl 0) as [j|]; [|eauto].
    assert (AA : sk_good N (after_accept (e_isn env) ts)) by (unfold after_accept, ctrl_stop; sk_tac).
    pose proof (clone_good N (e_rxmem env) ts HN HE2 HT) as CG.
    destruct (negb queued); [do 2 eexists; split; [reflexivity|]; split; [apply set_slot_good; [exact HF|apply close_good]|unfold set_slot; apply set_nth_length]|].
    destruct veto; do 2 eexists; (split; [reflexivity|]); (split; [repeat apply set_slot_good; auto using close_good|unfold set_slot; rewrite ?set_nth_length; reflexivity]).
  - apply OS. intros t E HV H. eexists; split; [reflexivity|]. unfold sock_close.
    destruct (k_st t) eqn:ES; try exact H; try apply close_good; (destruct queued; cbn [fst]; [|exact H]); unfold ctrl_start; sk_tac.
  - apply OS. intros t E HV H. eexists; split; [reflexivity|]. destruct (k_st t) eqn:ES; try exact H; sk_tac.
  - apply OS. intros t E HV H. destruct (_ || _) eqn:EC; [|eauto].
    destruct (proj1 (proj1 H)) as [HS|(HS & HA)].
    + destruct (sock_recv_safe _ _ shift len HS HO) as (r & bs & a & -> & S & _). cbn [obind]. eexists; split; [reflexivity|]. apply set_rx_good; [exact H|left; exact S].
    + unfold sock_recv, queue_pop, queue_len. rewrite HS. change (0 <=? 1) with true. cbn [obind]. change (0 =? 0) with true. cbn [obind fst snd]. eexists; split; [reflexivity|]. apply set_rx_good; [exact H|]. right. cbn. auto.
  - unfold tcp_input.
    assert (L : forall after before, Forall (sk_good N) before -> Forall (sk_good N) after -> exists tb o m, input_loop env g before after = Some (tb, o, m) /\ Forall (sk_good N) tb).
    { induction after as [|t after IH]; intros before HB HAf; cbn [input_loop]; [eauto|].
      pose proof (Forall_inv HAf) as H1. pose proof (Forall_inv_tail HAf) as H2. destruct (addressed t g) eqn:EA.
      - destruct (sock_input_good N env (before ++ after) (length before) t g HN HE H1 HO (proj2 (addressed_port _ _ EA))) as (t' & o & s & -> & G). cbn [obind fst snd].
        destruct s; [do 3 eexists; split; [reflexivity|]; apply Forall_app; auto|].
        destruct (IH (before ++ [t'])) as (tb & o2 & m & -> & G2); [apply Forall_app; auto|exact H2|]. cbn [obind fst snd]. eauto.
      - apply IH; [apply Forall_app; auto|exact H2]. }
    destruct (L tbl [] (Forall_nil _) HF) as (tb & o & m & E & G). rewrite E. cbn [obind fst snd]. do 2 eexists. split; [reflexivity|]. split; [exact G|].
    destruct (input_loop_nth _ _ _ _ _ _ _ E) as (H1 & _). exact H1.
  - apply OS. intros t E HV H. eexists; split; [reflexivity|]. destruct (k_tmr t); [apply rto_good; assumption|exact H].
  - apply OS. intros t E HV H. eexists; split; [reflexivity|]. destruct (k_st t) eqn:ES; try exact H; (destruct (emb =? k_una t); [apply close_good|exact H]).
  - apply OS. intros t E HV H. eexists; split; [reflexivity|]. destruct (k_cnp t); [apply sk0_good|]. destruct (k_cb t && tst_eqb (k_st t) CLOSED && k_evc t); [apply sk0_good|].
    destruct (k_cb t && conn_state (k_st t)) eqn:EC; [|exact H]. apply andb_prop in EC as [_ EC].
    assert (NC : k_st t <> CLOSED) by (intros E2; rewrite E2 in EC; discriminate). sk_tac.
Qed.
