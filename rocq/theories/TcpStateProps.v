(** Theorems about the TCP state machine. *)
From Verif Require Import Base ListUtil Seq SeqProps Queue QueueProofs TcpRecv TcpRecvSafe TcpState TcpStateSpec TcpStateProofs.

(** Every table reachable from an empty one of [n] slots, each socket having [N] bytes of
    receive memory; the environment (random numbers, local addresses, ...) may differ at
    each step. *)
Inductive reach (N : Z) (n : nat) : list sk -> Prop :=
| R_init : reach N n (repeat sk0 n)
| R_step : forall tbl env e tbl' o, reach N n tbl -> env_ok N env -> ev_ok tbl e -> step env tbl e = Some (tbl', o) -> reach N n tbl'.

Lemma reach_good N n tbl : 1 < N <= 1073741824 -> reach N n tbl -> Forall (sk_good N) tbl /\ length tbl = n.
Proof.
  intros HN H. induction H as [|tbl env e tbl' o HR (IH & IL) HE HO HS].
  - split; [|apply repeat_length]. apply Forall_forall. intros t Ht. apply repeat_spec in Ht. subst. apply sk0_good.
  - destruct (step_good N env tbl e HN HE IH HO) as (tb & oo & E & G & L). rewrite HS in E. inversion E; subst. auto.
Qed.
Lemma reach_nth N n tbl i t : 1 < N <= 1073741824 -> reach N n tbl -> nth_error tbl i = Some t -> sk_good N t.
Proof. intros HN H E. destruct (reach_good _ _ _ HN H) as (F & _). rewrite Forall_nth in F. eapply F; exact E. Qed.

Lemma dead_closed N t : sk_good N t -> k_live t = false -> k_st t = CLOSED.
Proof. intros ((_ & _ & _ & _ & _ & _ & H) & _). exact H. Qed.

(** No history of segments, calls, timers and ICMP errors makes the state machine leave its
    buffers. *)
Theorem tcp_table_total : forall N n tbl env e, 1 < N <= 1073741824 -> reach N n tbl -> env_ok N env -> ev_ok tbl e ->
  exists tbl' o, step env tbl e = Some (tbl', o) /\ length tbl' = n.
Proof.
  intros N n tbl env e HN HR HE HO. destruct (reach_good _ _ _ HN HR) as (F & L).
  destruct (step_good N env tbl e HN HE F HO) as (tbl' & o & E & _ & L2). exists tbl', o. split; [exact E|congruence].
Qed.

(** A segment changes a socket's state only along an edge of the RFC 9293 diagram whose
    condition the segment meets. *)
Theorem tcp_segment_transitions : forall N n tbl env g tbl' o i t t', 1 < N <= 1073741824 -> reach N n tbl -> env_ok N env -> seg_ok g ->
  step env tbl (ESeg g) = Some (tbl', o) -> nth_error tbl i = Some t -> nth_error tbl' i = Some t' -> k_st t' <> k_st t ->
  k_live t = true /\ seg_edge t g (k_st t) (k_st t').
Proof.
  intros N n tbl env g tbl' o i t t' HN HR HE HG HS Ht Ht' HC. cbn [step] in HS.
  destruct (tcp_input_nth _ _ _ _ _ HS) as (_ & K). destruct (K i t Ht) as (t2 & E2 & [->|(HA & others & oo & s & HI)]).
  - rewrite Ht' in E2. inversion E2; subst. congruence.
  - rewrite Ht' in E2. inversion E2; subst t2. split; [apply (addressed_port _ _ HA)|].
    eapply sock_input_cases; try eassumption. exact (proj1 (reach_nth _ _ _ _ _ HN HR Ht)).
Qed.

Definition is_seg (e : ev) : bool := match e with ESeg _ => true | _ => false end.
Lemma on_slot_at tbl j f tbl' o i t t' : on_slot tbl j f = Some (tbl', o) -> nth_error tbl i = Some t -> nth_error tbl' i = Some t' ->
  t' = t \/ (i = j /\ k_live t = true /\ f t = Some t').
Proof.
  intros H Ht Ht'. destruct (on_slot_nth _ _ _ _ _ H) as (_ & [->|(u & u' & E1 & E2 & E3 & ->)]); [left; congruence|].
  rewrite nth_set_slot in Ht'. destruct (Nat.eqb j i) eqn:EJ; cbn [andb] in Ht'; [|left; congruence].
  apply Nat.eqb_eq in EJ. subst j. assert (L : (i <? length tbl)%nat = true) by (apply Nat.ltb_lt, nth_error_Some; congruence).
  rewrite L in Ht'. right. split; [reflexivity|]. rewrite Ht in E1. inversion E1; subst. split; [exact E2|congruence].
Qed.
Lemma set_slot_at tbl j u i t t' : nth_error tbl i = Some t -> nth_error (set_slot tbl j u) i = Some t' -> (i = j /\ t' = u) \/ (i <> j /\ t' = t).
Proof.
  intros Ht Ht'. rewrite nth_set_slot in Ht'. destruct (Nat.eqb j i) eqn:EJ; cbn [andb] in Ht'.
  - apply Nat.eqb_eq in EJ. subst j. assert (L : (i <? length tbl)%nat = true) by (apply Nat.ltb_lt, nth_error_Some; congruence).
    rewrite L in Ht'. left. split; [reflexivity|congruence].
  - apply Nat.eqb_neq in EJ. right. split; [congruence|congruence].
Qed.

(** Every other event changes a socket's state only along [other_edge]; a free slot comes to
    life only by socket() (CLOSED) or by accept() of a listener that holds a half-open
    connection, and then it is that connection. *)
Theorem tcp_other_transitions : forall N n tbl env e tbl' o i t t', 1 < N <= 1073741824 -> reach N n tbl -> env_ok N env -> ev_ok tbl e ->
  is_seg e = false -> step env tbl e = Some (tbl', o) -> nth_error tbl i = Some t -> nth_error tbl' i = Some t' -> k_st t' <> k_st t ->
  (k_live t = true /\ other_edge i t e (k_st t) (k_st t')) \/
  (k_live t = false /\ exists j l, e = EAccept j true false /\ nth_error tbl j = Some l /\ k_live l = true /\ k_st l = SYN_RCVD
     /\ k_st t' = SYN_RCVD /\ k_lport t' = k_lport l /\ k_rport t' = k_rport l /\ k_lip t' = k_lip l /\ k_rip t' = k_rip l
     /\ k_ack t' = k_ack l /\ k_seq t' = k_seq l /\ o = [OSynAck i]).
Proof.
  intros N n tbl env e tbl' o i t t' HN HR HE HO HSeg HS Ht Ht' HC.
  pose proof (reach_nth _ _ _ _ _ HN HR Ht) as HG.
  assert (AT : forall j f, on_slot tbl j f = Some (tbl', o) -> i = j /\ k_live t = true /\ f t = Some t').
  { intros j f H. destruct (on_slot_at _ _ _ _ _ _ _ _ H Ht Ht') as [->|K]; [congruence|exact K]. }
  destruct e as [|j bip lip port rf|j a|j veto|j bad veto queued lip rip rport rnd|j queued veto|j queued|j m|j shift len|g|j p gv r q|j emb|j]; cbn [step] in HS; try discriminate HSeg.
  - (* socket *) destruct (free_slot tbl 0) as [j|] eqn:EF; [|inversion HS; subst; congruence].
    destruct (free_slot_spec _ _ _ EF) as (u & E1 & E2 & _). rewrite Nat.sub_0_r in E1. inversion HS; subst.
    destruct (set_slot_at _ _ _ _ _ _ Ht Ht') as [(-> & ->)|(_ & ->)]; [|congruence].
    rewrite Ht in E1. inversion E1; subst. assert (E3 : k_st u = CLOSED) by (eapply dead_closed; eassumption). cbn in HC. congruence.
  - destruct (AT _ _ HS) as (-> & HL & K). destruct (_ && _); inversion K; subst; cbn in HC; congruence.
  - destruct (AT _ _ HS) as (-> & HL & K). inversion K; subst; cbn in HC; congruence.
  - destruct (AT _ _ HS) as (-> & HL & K). left. split; [exact HL|]. inversion K; subst t'. unfold sock_listen in *. destruct (k_st t) eqn:ES; cbn [fst] in *; try congruence.
    destruct veto; cbn in *; [congruence|]. constructor.
  - destruct (AT _ _ HS) as (-> & HL & K). left. split; [exact HL|]. inversion K; subst t'. unfold sock_connect in *. destruct (k_st t) eqn:ES; cbn [fst] in *; try congruence.
    destruct bad; cbn [fst] in *; [congruence|]. destruct veto; cbn in *; [congruence|]. destruct queued; cbn [andb negb] in *; [|cbn in *; congruence].
    destruct (k_cnp t); cbn in *; [congruence|]. constructor.
  - destruct (nth_error tbl j) as [l|] eqn:EJ; [|inversion HS; subst; congruence].
    destruct (k_live l) eqn:EL; cbn [negb] in HS; [|inversion HS; subst; congruence].
    destruct (tst_eqb (k_st l) ESTABLISHED && k_lsn l) eqn:EE.
    { apply andb_prop in EE as [EE EN]. apply tst_eqb_true in EE. inversion HS; subst tbl' o. destruct (set_slot_at _ _ _ _ _ _ Ht Ht') as [(-> & ->)|(_ & ->)]; [|congruence].
      rewrite Ht in EJ. inversion EJ; subst l. left. split; [exact EL|]. rewrite EE. apply E_accept_late. exact EN. }
    destruct (tst_eqb (k_st l) SYN_RCVD) eqn:ER; [|inversion HS; subst; congruence]. apply tst_eqb_true in ER.
    destruct (free_slot tbl 0) as [f|] eqn:EF; [|inversion HS; subst; congruence].
    destruct (free_slot_spec _ _ _ EF) as (u & F1 & F2 & _). rewrite Nat.sub_0_r in F1.
    assert (HU : k_st u = CLOSED) by (eapply dead_closed; [exact (reach_nth _ _ _ _ _ HN HR F1)|exact F2]).
    assert (NJ : j <> f) by (intros ->; congruence).
    destruct queued; cbn [negb] in HS.
    + assert (X : (i = j /\ t' = after_accept (e_isn env) l) \/ (i = f /\ t' = (if veto then close_socket (clone (e_rxmem env) l) else clone (e_rxmem env) l)) \/ t' = t).
      { destruct veto; inversion HS; subst tbl' o.
        - set (tb1 := set_slot tbl f (clone (e_rxmem env) l)) in *. set (tb2 := set_slot tb1 j (after_accept (e_isn env) l)) in *.
          destruct (nth_error tb1 i) as [u1|] eqn:U1; [|exfalso; apply nth_error_None in U1; unfold tb1, set_slot in U1; rewrite set_nth_length in U1; assert (nth_error tbl i = None) by (apply nth_error_None; exact U1); congruence].
          destruct (nth_error tb2 i) as [u2|] eqn:U2; [|exfalso; apply nth_error_None in U2; unfold tb2, tb1, set_slot in U2; rewrite !set_nth_length in U2; assert (nth_error tbl i = None) by (apply nth_error_None; exact U2); congruence].
          destruct (set_slot_at _ _ _ _ _ _ Ht U1) as [(A1 & A2)|(A1 & A2)], (set_slot_at _ _ _ _ _ _ U1 U2) as [(B1 & B2)|(B1 & B2)], (set_slot_at _ _ _ _ _ _ U2 Ht') as [(C1 & C2)|(C1 & C2)]; subst; auto; congruence.
        - set (tb1 := set_slot tbl f (clone (e_rxmem env) l)) in *.
          destruct (nth_error tb1 i) as [u1|] eqn:U1; [|exfalso; apply nth_error_None in U1; unfold tb1, set_slot in U1; rewrite set_nth_length in U1; assert (nth_error tbl i = None) by (apply nth_error_None; exact U1); congruence].
          destruct (set_slot_at _ _ _ _ _ _ Ht U1) as [(A1 & A2)|(A1 & A2)], (set_slot_at _ _ _ _ _ _ U1 Ht') as [(B1 & B2)|(B1 & B2)]; subst; auto; congruence. }
      destruct X as [(-> & ->)|[(-> & ->)| ->]]; [| |congruence].
      * rewrite Ht in EJ. inversion EJ; subst l. left. split; [exact EL|]. rewrite ER. apply E_accept.
      * rewrite Ht in F1. inversion F1; subst u. destruct veto; [rewrite close_socket_st in HC; congruence|]. right. split; [exact F2|].
        exists j, l. inversion HS; subst. repeat split; auto.
    + inversion HS; subst tbl' o. destruct (set_slot_at _ _ _ _ _ _ Ht Ht') as [(-> & ->)|(_ & ->)]; [|congruence].
      rewrite close_socket_st in HC. rewrite Ht in F1. inversion F1; subst. congruence.
  - destruct (AT _ _ HS) as (-> & HL & K). left. split; [exact HL|]. inversion K; subst t'. unfold sock_close in *.
    destruct (k_st t) eqn:ES; cbn [fst] in *; try congruence; try (destruct queued; cbn [fst] in *; [|congruence]; cbn; now constructor);
      rewrite close_socket_st in *; try congruence; apply E_close_abort; cbn; tauto.
  - destruct (AT _ _ HS) as (-> & HL & K). inversion K; subst t'. destruct (k_st t) eqn:E; rewrite ?E in HC; cbn in HC; congruence.
  - destruct (AT _ _ HS) as (-> & HL & K). destruct (_ || _); [|inversion K; subst; congruence].
    destruct (sock_recv _ _ _) as [[rx z]|]; cbn [obind] in K; inversion K; subst; cbn in HC; congruence.
  - destruct (AT _ _ HS) as (-> & HL & K). left. split; [exact HL|]. inversion K; subst t'. clear K. destruct (k_tmr t); [|congruence].
    unfold rto_cb in *. cbn [set_tm k_fw2 k_st k_pre k_lsn k_ctrl k_retr] in *.
    destruct (k_fw2 t) eqn:E1.
    { destruct (tst_eqb (k_st t) FIN_WAIT_2) eqn:E2; [|cbn in HC; congruence]. apply tst_eqb_true in E2. rewrite close_socket_st, E2. apply E_fw2_timeout. exact E1. }
    destruct (k_pre t) eqn:E2.
    { destruct (tst_eqb (k_st t) ESTABLISHED && k_lsn t) eqn:E3; [|cbn in HC; congruence]. apply andb_prop in E3 as [E3 E4]. apply tst_eqb_true in E3. rewrite E3. now apply E_preaccept. }
    destruct (needs_ctrl _ p || k_ctrl t).
    + destruct (negb (needs_ctrl _ p)) eqn:EN; [cbn in HC; congruence|].
      destruct (CTRL_MAXRTX <=? k_retr t) eqn:EM.
      * apply Z.leb_le in EM. change CTRL_MAXRTX with 8 in EM. destruct (k_lsn t && tst_eqb (k_st t) SYN_RCVD) eqn:E3.
        { apply andb_prop in E3 as [E3 E4]. apply tst_eqb_true in E4. rewrite E4. now apply E_ctrl_listener. }
        rewrite close_socket_st. unfold needs_ctrl in EN. cbn [set_tm k_st] in EN. destruct (k_st t) eqn:ES; try discriminate EN; apply E_ctrl_giveup; cbn; auto.
      * destruct (k_st t) eqn:ES; try destruct q; cbn in HC; congruence.
    + destruct (k_st t) eqn:ES; try (cbn in HC; congruence); destruct gv; try (cbn in HC; congruence); rewrite close_socket_st; apply E_data_giveup; cbn; auto.
  - destruct (AT _ _ HS) as (-> & HL & K). left. split; [exact HL|]. inversion K; subst t'. clear K. destruct (k_st t) eqn:ES; try congruence;
      (destruct (emb =? k_una t) eqn:EM; [|congruence]; apply Z.eqb_eq in EM; subst emb; rewrite close_socket_st; apply E_icmp; cbn; auto).
  - destruct (AT _ _ HS) as (-> & HL & K). inversion K; subst t'. clear K. destruct (k_cnp t) eqn:EC.
    { destruct HG as (_ & _ & _ & _ & _ & HG & _). destruct (HG EC) as (E & _). cbn in HC. congruence. }
    destruct (k_cb t && tst_eqb (k_st t) CLOSED && k_evc t) eqn:E2.
    { apply andb_prop in E2 as [E2 _]. apply andb_prop in E2 as [_ E2]. apply tst_eqb_true in E2. cbn in HC. congruence. }
    destruct (k_cb t && conn_state (k_st t)); cbn in HC; congruence.
Qed.

(** A socket that the segment does not address is untouched. *)
Theorem tcp_segment_isolation : forall env tbl g tbl' o i t, step env tbl (ESeg g) = Some (tbl', o) -> nth_error tbl i = Some t ->
  (k_lport t <> g_dport g \/ (conn_state (k_st t) = true /\ ~ same_connection t g)) -> nth_error tbl' i = Some t.
Proof.
  intros env tbl g tbl' o i t HS Ht HN. cbn [step] in HS. destruct (tcp_input_nth _ _ _ _ _ HS) as (_ & K).
  destruct (K i t Ht) as (t' & E & [->|(HA & _)]); [exact E|]. exfalso. pose proof (addressed_port _ _ HA) as (HP & _).
  destruct HN as [HN|(HC & HN)]; [congruence|]. apply HN. apply addressed_conn; assumption.
Qed.

(** In SYN_RCVD and in every synchronized state, a segment that is neither acceptable nor
    (timestamps negotiated) newer than TS.Recent changes nothing but the peer's window. *)
Definition sync_or_rcvd (s : tst) : bool := match s with CLOSED | LISTEN | SYN_SENT => false | _ => true end.
Theorem tcp_unacceptable_ignored : forall N n tbl env g tbl' o i t, 1 < N <= 1073741824 -> reach N n tbl -> env_ok N env -> seg_ok g ->
  step env tbl (ESeg g) = Some (tbl', o) -> nth_error tbl i = Some t -> sync_or_rcvd (k_st t) = true -> g_rst g = false ->
  (~ seq_acceptable t g \/ (k_st t <> SYN_RCVD /\ ~ paws_ok t g)) ->
  exists w, nth_error tbl' i = Some (set_win t w (k_wson t) (k_wsc t)).
Proof.
  intros N n tbl env g tbl' o i t HN HR HE HG HS Ht HC HNR HB. cbn [step] in HS.
  destruct (tcp_input_nth _ _ _ _ _ HS) as (_ & K). destruct (K i t Ht) as (t' & E & [->|(HA & others & oo & s & HI)]).
  { exists (k_rwnd t). rewrite E. f_equal. destruct t; reflexivity. }
  destruct (reach_nth _ _ _ _ _ HN HR Ht) as (HInv & _).
  assert (N1 : k_st t <> LISTEN /\ k_st t <> SYN_SENT) by (split; intros X; rewrite X in HC; discriminate).
  destruct (pre_sync t g (proj1 N1) (proj2 N1)) as (w & EP & _). exists w. rewrite E. f_equal.
  unfold sock_input in HI. rewrite EP in HI. assert (L : tst_eqb (k_st t) LISTEN = false) by (apply tst_eqb_false; apply N1).
  assert (L2 : tst_eqb (k_st t) SYN_SENT = false) by (apply tst_eqb_false; apply N1).
  cbn [set_win k_st] in HI. rewrite L, L2, HNR in HI. cbn [andb] in HI. rewrite ?andb_false_r in HI. cbn [andb] in HI.
  set (u := set_win t w (k_wson t) (k_wsc t)) in *. assert (US : k_st u = k_st t) by reflexivity. rewrite ?US in HI.
  assert (NA : ~ seq_acceptable t g -> acceptable u g = false).
  { intros X. destruct (acceptable u g) eqn:EA; [|reflexivity]. exfalso. apply X. apply (acceptable_spec N) in EA; [exact EA|exact HN|apply HInv|exact HG]. }
  assert (NP : ~ paws_ok t g -> paws_check u g <> PawsOk).
  { intros X Y. apply X. assert (IU : sk_inv N u) by exact HInv. apply (paws_spec N) in Y; [exact Y|exact IU|exact HG]. }
  destruct (tst_eqb (k_st t) SYN_RCVD) eqn:E6.
  { apply tst_eqb_true in E6. rewrite E6 in HI. destruct HB as [HB|(HB & _)]; [|congruence]. specialize (NA HB).
    destruct (synrcvd_input i u g) as [[[t2 o2] s2]|] eqn:EI; cbn [obind fst snd] in HI; [|discriminate]. inversion HI; subst t2.
    destruct (synrcvd_st _ _ _ _ _ _ (eq_trans US E6) EI) as (_ & [->|(A & B & C & D)]); [reflexivity|congruence]. }
  assert (H' : exists o2, sync_input env i u g = Some (t', o2, s)).
  { destruct (k_st t) eqn:ES; try discriminate E6;
    (destruct (sync_input env i u g) as [[[t2 o2] s2]|] eqn:EI; cbn [obind fst snd] in HI; [|discriminate]; inversion HI; eauto). }
  destruct H' as (o2 & H'). destruct (sync_input_st _ _ _ _ _ _ _ H') as [->|(A & A2 & B & C & D & F & K2)]; [reflexivity|].
  exfalso. destruct HB as [HB|(_ & HB)]; [specialize (NA HB); congruence|exact (NP HB B)].
Qed.

(** TIME_WAIT is left only by close() or by a reset at RCV.NXT of the same connection. *)
Theorem tcp_time_wait_exits : forall N n tbl env e tbl' o i t t', 1 < N <= 1073741824 -> reach N n tbl -> env_ok N env -> ev_ok tbl e ->
  step env tbl e = Some (tbl', o) -> nth_error tbl i = Some t -> nth_error tbl' i = Some t' -> k_st t = TIME_WAIT -> k_st t' <> TIME_WAIT ->
  k_st t' = CLOSED /\ ((exists q, e = EClose i q) \/ (exists g, e = ESeg g /\ same_connection t g /\ g_rst g = true /\ g_seq g = k_ack t)).
Proof.
  intros N n tbl env e tbl' o i t t' HN HR HE HO HS Ht Ht' HT HC.
  destruct (is_seg e) eqn:ES.
  - destruct e; try discriminate. destruct (tcp_segment_transitions N n tbl env g tbl' o i t t' HN HR HE HO HS Ht Ht' ltac:(congruence)) as (_ & K).
    rewrite HT in K. inversion K; subst. split; [reflexivity|]. right. eauto.
  - destruct (tcp_other_transitions N n tbl env e tbl' o i t t' HN HR HE HO ES HS Ht Ht' ltac:(congruence)) as [(_ & K)|(HL & _)].
    + rewrite HT in K. inversion K; subst; try (repeat match goal with H : In _ _ |- _ => cbn in H end; exfalso; intuition discriminate); [split; [reflexivity|]; left; eauto].
    + pose proof (dead_closed N t (reach_nth _ _ _ _ _ HN HR Ht) HL). congruence.
Qed.

(** ** Resets in answer to segments *)
Lemma reset_reply_spec g s a : In (ORst s a) (reset_reply g) -> is_u32 (g_seq g) -> zlen (g_data g) < 65536 -> g_rst g = false /\
  (if g_ack g then s = g_ackn g /\ a = None else s = 0 /\ a = Some ((g_seq g + g_len g) mod 2^32)).
Proof.
  intros H HS HL. unfold reset_reply in H. destruct (g_rst g); [destruct H|]. split; [reflexivity|].
  destruct (g_ack g); (destruct H as [H|[]]); inversion H; [auto|]. split; [reflexivity|]. f_equal. unfold g_len.
  pose proof (zlen_nonneg (g_data g)) as Z0. set (n := zlen (g_data g)) in *. clearbody n.
  assert (I : forall x k, is_u32 x -> 0 <= k < 2^32 -> tcp_seq_inc x k = (x + k) mod 2^32).
  { unfold is_u32, tcp_seq_inc, u32. intros x k Hx Hk. change (2^32) with 4294967296 in *. destruct (_ <? _) eqn:E; lia. }
  change (2^32) with 4294967296 in *.
  assert (I1 : forall x, tcp_seq_inc (tcp_seq_inc x n) 1 = (tcp_seq_inc x n + 1) mod 4294967296) by (intros; apply I; [apply inc_u32|lia]).
  assert (I2 : forall x, tcp_seq_inc (tcp_seq_inc (tcp_seq_inc x n) 1) 1 = (tcp_seq_inc (tcp_seq_inc x n) 1 + 1) mod 4294967296) by (intros; apply I; [apply inc_u32|lia]).
  destruct (g_syn g), (g_fin g); rewrite ?I2, ?I1, ?(I (g_seq g) n HS ltac:(lia)); unfold is_u32 in HS; lia.
Qed.
Lemma no_rst_app s a (l1 l2 : list out) : In (ORst s a) (l1 ++ l2) -> In (ORst s a) l1 \/ In (ORst s a) l2.
Proof. apply in_app_or. Qed.
Lemma rst_acks {A} s a i (l : list A) : In (ORst s a) (map (fun _ => OAck i) l) -> False.
Proof. intros H. apply in_map_iff in H as (x & H & _). discriminate. Qed.
Lemma sync_no_rst env i t g t' o s x a : sync_input env i t g = Some (t', o, s) -> In (ORst x a) o -> False.
Proof.
  intros H HI. unfold sync_input in H.
  assert (D : match paws_check t g with
    | PawsAckDrop => Some (t, [OAck i], false)
    | PawsDrop => Some (t, [], false)
    | PawsOk =>
      if negb (acceptable t g) then Some (t, [OAck i], false)
      else if g_syn g then Some (t, [OAck i], false)
      else if negb (g_ack g) then Some (t, [], false)
      else
        let t1 := process_ts (tcp_ack (e_infl env) t g) g in
        if (0 <? zlen (g_data g)) && tst_eqb (k_st t1) CLOSING then Some (t1, [], true)
        else
          do (rx, acks) <- (if (0 <? zlen (g_data g)) && rx_state (k_st t1) then tcp_recv (k_rx t1) (g_seq g) (g_data g) else Some (k_rx t1, []));
          let '(t2, o, stop) := fin_input i (set_rx t1 rx) g in
          Some (t2, map (fun _ => OAck i) acks ++ o, stop)
    end = Some (t', o, s) -> False).
  { intros K. destruct (paws_check t g); [|inversion K; subst; destruct HI|inversion K; subst; destruct HI as [HI|[]]; discriminate].
    destruct (negb (acceptable t g)); [inversion K; subst; destruct HI as [HI|[]]; discriminate|].
    destruct (g_syn g); [inversion K; subst; destruct HI as [HI|[]]; discriminate|].
    destruct (negb (g_ack g)); [inversion K; subst; destruct HI|]. cbv zeta in K.
    destruct (_ && tst_eqb _ CLOSING); [inversion K; subst; destruct HI|].
    destruct (if _ && _ then _ else _) as [[rx acks]|] in K; cbn [obind] in K; [|discriminate].
    destruct (fin_input i (set_rx (process_ts (tcp_ack (e_infl env) t g) g) rx) g) as [[t2 o2] s2] eqn:EF. inversion K; subst.
    apply in_app_or in HI as [HI|HI]; [apply rst_acks in HI; exact HI|]. unfold fin_input in EF.
    destruct (g_fin g); [destruct (_ || _)|]; inversion EF; subst; try (destruct HI as [HI|[]]; discriminate). destruct HI. }
  destruct (k_st t) eqn:ES; try (apply D; exact H); try (inversion H; subst; destruct HI; fail).
  - destruct (paws_check t g); inversion H; subst; try (destruct HI as [HI|[]]; discriminate); destruct HI.
  - destruct (paws_check t g); [|inversion H; subst; destruct HI|inversion H; subst; destruct HI as [HI|[]]; discriminate].
    destruct (negb (acceptable t g)); [inversion H; subst; destruct HI as [HI|[]]; discriminate|].
    destruct (g_syn g); [inversion H; subst; destruct HI as [HI|[]]; discriminate|]. destruct (g_ack g); inversion H; subst; destruct HI.
Qed.
(** The three situations in which a socket itself answers with a reset. *)
Definition draws_reset (t : sk) (g : tseg) : Prop :=
  g_ack g = true /\ (k_st t = LISTEN \/ (k_st t = SYN_SENT /\ ~ acks_syn t g) \/ (k_st t = SYN_RCVD /\ ~ acks_syn t g)).
Lemma sock_input_rst N env others i t g t' o s x a : sk_inv N t -> seg_ok g -> sock_input env others i t g = Some (t', o, s) -> In (ORst x a) o ->
  In (ORst x a) (reset_reply g) /\ draws_reset t g.
Proof.
  intros HI0 HG H HI. unfold sock_input in H.
  destruct (tst_eqb (k_st t) LISTEN && g_rst g); [inversion H; subst; destruct HI|].
  destruct (tst_eqb (k_st t) LISTEN && g_ack g) eqn:EL.
  { apply andb_prop in EL as [EL EA]. apply tst_eqb_true in EL. inversion H; subst. destruct (child_match others g); [destruct HI|]. split; [exact HI|]. split; [exact EA|auto]. }
  cbv zeta in H. pose proof HI0 as (_ & IS & IU & _ & _ & IE & _). pose proof HG as (G1 & G2 & _).
  assert (U0 : k_st (peer_window (syn_options t g) g) = k_st t /\ k_una (peer_window (syn_options t g) g) = k_una t /\ k_seq (peer_window (syn_options t g) g) = k_seq t) by (destruct (pre_any t g) as (w & oo & c & ts & ->); repeat split).
  set (u := peer_window (syn_options t g) g) in *. clearbody u. destruct U0 as (U1 & U2 & U3).
  destruct (g_rst g).
  { exfalso. unfold rst_input in H. inversion H as [K]. clear H.
    destruct (k_st u); repeat match type of K with context [if ?b then _ else _] => destruct b end; inversion K; subst; try (destruct HI as [HI|[]]; discriminate); destruct HI. }
  destruct (tst_eqb (k_st u) SYN_SENT && g_ack g && _) eqn:ES.
  { apply andb_prop in ES as [ES EW]. apply andb_prop in ES as [ES EA]. apply tst_eqb_true in ES. inversion H; subst. split; [exact HI|]. split; [exact EA|].
    right; left. split; [congruence|]. intros (_ & X). rewrite U2, U3, <- (IE (or_introl (eq_trans (eq_sym U1) ES))) in EW. rewrite X in EW.
    unfold is_u32 in IU. rewrite inc1 in EW by exact IU. change (2^32) with 4294967296 in EW. unfold tcp_seq_lt, tcp_seq_leq in EW.
    assert (HM : (k_una t + 1) mod 4294967296 = k_una t + 1 \/ (k_una t = 4294967295 /\ (k_una t + 1) mod 4294967296 = 0)) by lia.
    set (m := (k_una t + 1) mod 4294967296) in *. rewrite (Z.eqb_refl m) in EW. cbn [negb andb] in EW. rewrite orb_false_r in EW. destruct (k_una t =? m) eqn:E1; destruct (k_una t <=? m) eqn:E2; lia. }
  destruct (g_syn g && tst_eqb (k_st u) LISTEN).
  { destruct (listen_syn env others u g); inversion H; subst; [destruct HI as [HI|[]]; discriminate|destruct HI]. }
  destruct (g_syn g && tst_eqb (k_st u) SYN_SENT && g_ack g && negb (g_fin g) && negb (g_xflags g)) eqn:E5.
  { rewrite synsent_synack_st in H. destruct (sync_input env i (synsent_synack u g) g) as [[[t2 o2] s2]|] eqn:EI; cbn [obind fst snd] in H; [|discriminate]. inversion H; subst.
    exfalso. destruct HI as [HI|HI]; [discriminate|]. eapply sync_no_rst; eassumption. }
  destruct (tst_eqb (k_st u) SYN_RCVD) eqn:E6.
  { apply tst_eqb_true in E6. rewrite E6 in H. destruct (synrcvd_input i u g) as [[[t2 o2] s2]|] eqn:EI; cbn [obind fst snd] in H; [|discriminate]. inversion H; subst.
    cbn [app] in HI. unfold synrcvd_input in EI.
    destruct (g_syn g && negb (g_ack g) && _); [inversion EI; subst; destruct HI as [HI|[]]; discriminate|].
    destruct (g_ack g) eqn:EA; cbn [negb] in EI; [|inversion EI; subst; destruct HI].
    destruct (negb (acceptable u g)); [inversion EI; subst; destruct HI as [HI|[]]; discriminate|].
    destruct (g_ackn g =? tcp_seq_inc (k_una u) 1) eqn:EQ; cbn [negb] in EI.
    - exfalso. destruct (if 0 <? zlen (g_data g) then _ else _) as [[rx acks]|] in EI; cbn [obind] in EI; [|discriminate].
      assert (X : In (ORst x a) (map (fun _ => OAck i) acks ++ [OAck i]) -> False).
      { intros X. apply in_app_or in X as [X|[X|[]]]; [apply rst_acks in X; exact X|discriminate]. }
      destruct (g_fin g); [destruct (_ =? _) in EI; inversion EI; subst; exact (X HI)|]. inversion EI; subst. apply rst_acks in HI. exact HI.
    - inversion EI; subst. split; [exact HI|]. split; [exact EA|]. right; right. split; [congruence|]. intros (_ & X).
      rewrite inc1 in EQ by (rewrite U2; exact IU). rewrite U2 in EQ. change (2^32) with 4294967296 in X. lia. }
  exfalso. destruct (k_st u) eqn:EU; try discriminate E6;
    (destruct (sync_input env i u g) as [[[t2 o2] s2]|] eqn:EI; cbn [obind fst snd app] in H; [|discriminate]; inversion H; subst; eapply sync_no_rst; eassumption).
Qed.
Lemma input_loop_rst N env g x a : seg_ok g -> forall after before tbl' o m, Forall (sk_inv N) after -> input_loop env g before after = Some (tbl', o, m) ->
  (In (ORst x a) o -> In (ORst x a) (reset_reply g) /\ exists t, In t after /\ addressed t g = true /\ draws_reset t g) /\
  (m = false <-> forall t, In t after -> addressed t g = false).
Proof.
  intros HG. induction after as [|t after IH]; intros before tbl' o m HF H; cbn [input_loop] in H.
  - inversion H; subst. split; [intros []|]. split; [intros _ t []|reflexivity].
  - pose proof (Forall_inv HF) as F1. pose proof (Forall_inv_tail HF) as F2. destruct (addressed t g) eqn:EA.
    + destruct (sock_input env (before ++ after) (length before) t g) as [[[t1 o1] s1]|] eqn:ES; cbn [obind fst snd] in H; [|discriminate].
      destruct s1.
      * inversion H; subst. split; [|split; [discriminate|intros X; rewrite (X t (or_introl eq_refl)) in EA; discriminate]].
        intros HI. destruct (sock_input_rst _ _ _ _ _ _ _ _ _ _ _ F1 HG ES HI) as (A & B). split; [exact A|]. exists t. split; [left; reflexivity|auto].
      * destruct (input_loop env g (before ++ [t1]) after) as [[[tb2 o2] m2]|] eqn:E2; cbn [obind fst snd] in H; [|discriminate]. inversion H; subst.
        split; [|split; [discriminate|intros X; rewrite (X t (or_introl eq_refl)) in EA; discriminate]].
        intros HI. apply in_app_or in HI as [HI|HI].
        { destruct (sock_input_rst _ _ _ _ _ _ _ _ _ _ _ F1 HG ES HI) as (A & B). split; [exact A|]. exists t. split; [left; reflexivity|auto]. }
        destruct (IH _ _ _ _ F2 E2) as (K & _). destruct (K HI) as (A & t2 & B & C). split; [exact A|]. exists t2. split; [right; exact B|exact C].
    + destruct (IH _ _ _ _ F2 H) as (K1 & K2). split.
      * intros HI. destruct (K1 HI) as (A & t2 & B & C). split; [exact A|]. exists t2. split; [right; exact B|exact C].
      * rewrite K2. split; [intros X u [<-|U]; auto|intros X u U; apply X; right; exact U].
Qed.
(** A reset never answers a reset, carries the RFC 9293 sequence and acknowledgement numbers,
    and is sent only when no socket matches a segment addressed to a local unicast address,
    or by a socket in LISTEN, SYN_SENT or SYN_RCVD for an acknowledgement of something never
    sent: never by a synchronized connection. *)
Theorem tcp_reset_replies : forall N n tbl env g tbl' o s a, 1 < N <= 1073741824 -> reach N n tbl -> env_ok N env -> seg_ok g ->
  step env tbl (ESeg g) = Some (tbl', o) -> In (ORst s a) o ->
  g_rst g = false /\
  (if g_ack g then s = g_ackn g /\ a = None else s = 0 /\ a = Some ((g_seq g + g_len g) mod 2^32)) /\
  ((tbl' = tbl /\ g_dst g <> 0 /\ e_bmcast env (g_dst g) = false /\ e_local env (g_dst g) = true) \/
   exists t, In t tbl /\ addressed t g = true /\ draws_reset t g).
Proof.
  intros N n tbl env g tbl' o s a HN HR HE HG HS HI. cbn [step] in HS. unfold tcp_input in HS.
  destruct (reach_good _ _ _ HN HR) as (F & _). assert (FI : Forall (sk_inv N) tbl) by (eapply Forall_impl; [|exact F]; intros t H; apply H).
  destruct (input_loop env g [] tbl) as [[[tb o1] m]|] eqn:E; cbn [obind fst snd] in HS; [|discriminate]. inversion HS; subst tb o. clear HS.
  destruct (input_loop_rst N env g s a HG _ _ _ _ _ FI E) as (K1 & K2). destruct HG as (G1 & _ & G3 & _).
  apply in_app_or in HI as [HI|HI].
  - destruct (K1 HI) as (A & B). destruct (reset_reply_spec _ _ _ A G1 G3) as (C & D). auto.
  - destruct m; [destruct HI|]. destruct (negb (g_dst g =? 0) && negb (e_bmcast env (g_dst g)) && e_local env (g_dst g)) eqn:EC; [|destruct HI].
    destruct (reset_reply_spec _ _ _ HI G1 G3) as (C & D). split; [exact C|]. split; [exact D|]. left.
    apply andb_prop in EC as [EC E3]. apply andb_prop in EC as [E1 E2]. split.
    + assert (X : forall t, In t tbl -> addressed t g = false) by (apply K2; reflexivity). clear - E X.
      assert (L : forall after before tb o m, (forall t, In t after -> addressed t g = false) -> input_loop env g before after = Some (tb, o, m) -> tb = before ++ after).
      { induction after as [|t after IH]; intros before tb o m H K; cbn [input_loop] in K; [inversion K; rewrite app_nil_r; reflexivity|].
        rewrite (H t (or_introl eq_refl)) in K. rewrite (IH _ _ _ _ (fun u U => H u (or_intror U)) K). rewrite <- app_assoc. reflexivity. }
      rewrite (L _ _ _ _ _ X E). reflexivity.
    + destruct (e_bmcast env (g_dst g)); [discriminate|]. split; [lia|auto].
Qed.
(** Conversely a segment without RST that no socket matches is answered by exactly one reset. *)
Theorem tcp_unmatched_segment_reset : forall env tbl g, (forall t, In t tbl -> k_live t = false \/ k_lport t <> g_dport g) ->
  g_dst g <> 0 -> e_bmcast env (g_dst g) = false -> e_local env (g_dst g) = true -> g_rst g = false ->
  exists s a, step env tbl (ESeg g) = Some (tbl, [ORst s a]).
Proof.
  intros env tbl g HN H0 HB HL HR. cbn [step]. unfold tcp_input.
  assert (L : forall after before, (forall t, In t after -> k_live t = false \/ k_lport t <> g_dport g) -> input_loop env g before after = Some (before ++ after, [], false)).
  { induction after as [|t after IH]; intros before H; cbn [input_loop]; [rewrite app_nil_r; reflexivity|].
    assert (EA : addressed t g = false).
    { destruct (addressed t g) eqn:EA; [|reflexivity]. destruct (addressed_port _ _ EA). destruct (H t (or_introl eq_refl)); congruence. }
    rewrite EA, IH by (intros u U; apply H; right; exact U). rewrite <- app_assoc. reflexivity. }
  rewrite (L tbl [] HN). cbn [obind fst snd app]. rewrite HB, HL. replace (g_dst g =? 0) with false by lia. cbn [negb andb].
  unfold reset_reply. rewrite HR. destruct (g_ack g); eauto.
Qed.

(** ** Progress: segments that must be accepted are *)
(** Slot [i] holds live socket [t], the segment is for it, and for no other socket. *)
Definition not_for (u : sk) (g : tseg) : Prop := k_live u = false \/ k_lport u <> g_dport g \/ (conn_state (k_st u) = true /\ ~ same_connection u g).
Definition only_for (tbl : list sk) (i : nat) (t : sk) (g : tseg) : Prop :=
  nth_error tbl i = Some t /\ k_live t = true /\ k_lport t = g_dport g /\ k_st t <> CLOSED /\ (k_st t <> LISTEN -> same_connection t g)
  /\ forall j u, j <> i -> nth_error tbl j = Some u -> not_for u g.
Lemma not_for_spec u g : not_for u g -> addressed u g = false.
Proof.
  intros H. destruct (addressed u g) eqn:E; [|reflexivity]. exfalso. destruct (addressed_port _ _ E) as (A & B).
  destruct H as [H|[H|(H & K)]]; try congruence. apply K. apply addressed_conn; assumption.
Qed.
Lemma same_addressed t g : k_live t = true -> k_lport t = g_dport g -> k_st t <> CLOSED -> (k_st t <> LISTEN -> same_connection t g) -> addressed t g = true.
Proof.
  intros H1 H2 H3 H4. unfold addressed. rewrite H1, H2, Z.eqb_refl. apply tst_eqb_false in H3. rewrite H3. cbn [negb andb].
  destruct (conn_state (k_st t)) eqn:EC; [|reflexivity]. cbn [negb orb]. destruct H4 as (_ & A & B & C); [intros X; rewrite X in EC; discriminate|].
  rewrite A, B, !Z.eqb_refl. cbn [andb]. destruct C as [->| ->]; [reflexivity|rewrite Z.eqb_refl; apply orb_true_r].
Qed.
Lemma set_slot_split l1 (t u : sk) l2 : set_slot (l1 ++ t :: l2) (length l1) u = l1 ++ u :: l2.
Proof. unfold set_slot. induction l1 as [|a l1 IH]; cbn; [reflexivity|]. rewrite IH. reflexivity. Qed.
Lemma only_for_step env tbl i t g : only_for tbl i t g -> exists others, (forall u, In u others -> exists j, j <> i /\ nth_error tbl j = Some u) /\
  (forall t' o s, sock_input env others i t g = Some (t', o, s) -> step env tbl (ESeg g) = Some (set_slot tbl i t', o)).
Proof.
  intros (H1 & H2 & H3 & H4 & H5 & H6). destruct (nth_error_split _ _ H1) as (l1 & l2 & E & L). exists (l1 ++ l2). split.
  { intros u HU. apply in_app_or in HU as [HU|HU]; apply In_nth_error in HU as (j & HU).
    - exists j. assert (j < length l1)%nat by (apply nth_error_Some; congruence). split; [lia|]. rewrite E, nth_error_app1 by assumption. exact HU.
    - exists (length l1 + S j)%nat. split; [lia|]. rewrite E, nth_error_app2 by lia. replace (length l1 + S j - length l1)%nat with (S j) by lia. exact HU. }
  intros t' o s HS. cbn [step]. unfold tcp_input.
  assert (N1 : forall u, In u l1 -> addressed u g = false).
  { intros u HU. apply In_nth_error in HU as (j & HU). assert (j < length l1)%nat by (apply nth_error_Some; congruence). apply not_for_spec, (H6 j); [lia|]. rewrite E, nth_error_app1 by assumption. exact HU. }
  assert (N2 : forall u, In u l2 -> addressed u g = false).
  { intros u HU. apply In_nth_error in HU as (j & HU). apply not_for_spec, (H6 (length l1 + S j)%nat); [lia|]. rewrite E, nth_error_app2 by lia. replace (length l1 + S j - length l1)%nat with (S j) by lia. exact HU. }
  assert (EA : addressed t g = true) by (apply same_addressed; assumption).
  assert (LA : forall after before, (forall u, In u after -> addressed u g = false) -> input_loop env g before after = Some (before ++ after, [], false)).
  { induction after as [|u after IH]; intros before H; cbn [input_loop]; [rewrite app_nil_r; reflexivity|].
    rewrite (H u (or_introl eq_refl)), IH by (intros v V; apply H; right; exact V). rewrite <- app_assoc. reflexivity. }
  assert (LB : forall l before, (forall u, In u l -> addressed u g = false) -> input_loop env g before (l ++ t :: l2) = input_loop env g (before ++ l) (t :: l2)).
  { induction l as [|u l IH]; intros before H; [rewrite app_nil_r; reflexivity|]. change ((u :: l) ++ t :: l2) with (u :: (l ++ t :: l2)). transitivity (input_loop env g (before ++ [u]) (l ++ t :: l2)); [cbn [input_loop]; rewrite (H u (or_introl eq_refl)); reflexivity|].
    rewrite IH by (intros v V; apply H; right; exact V). rewrite <- app_assoc. reflexivity. }
  rewrite E, LB by exact N1. cbn [app input_loop]. rewrite EA, L, HS. cbn [obind fst snd]. destruct s.
  - cbn [obind fst snd]. rewrite app_nil_r. subst i. rewrite set_slot_split. reflexivity.
  - rewrite LA by exact N2. cbn [obind fst snd]. rewrite !app_nil_r. subst i. rewrite set_slot_split. rewrite <- app_assoc. reflexivity.
Qed.

Lemma acc_at N t g : 1 < N <= 1073741824 -> rx_good N (k_rx t) -> g_seq g = k_ack t -> g_len g = 0 \/ 0 < rcv_wnd t -> acceptable t g = true.
Proof.
  intros HN HR HS HW. unfold acceptable, tcp_segment_acceptable. fold (rcv_wnd t). pose proof (rx_good_wnd N _ HN HR) as W. fold (rcv_wnd t) in W.
  pose proof (rx_good_ack N _ HR) as A. fold (k_ack t) in A. rewrite HS. set (x := k_ack t) in *. set (w := rcv_wnd t) in *. clearbody x w.
  assert (Q : tcp_seq_leq x x = true) by (unfold tcp_seq_leq; rewrite Z.leb_refl; lia).
  assert (R : 0 < w -> tcp_seq_lt x (tcp_seq_inc x w) = true).
  { intros P. unfold is_u32 in A. change (2^30) with 1073741824 in W. unfold tcp_seq_lt, tcp_seq_leq, tcp_seq_inc, u32.
    destruct (4294967295 - x <? w) eqn:E; [assert (M : (w - (4294967295 - x) - 1) mod 4294967296 = w - (4294967295 - x) - 1) by lia|assert (M : (x + w) mod 4294967296 = x + w) by lia]; rewrite M; destruct (x <=? _) eqn:E2; lia. }
  destruct (g_len g =? 0) eqn:EL; destruct (w =? 0) eqn:EW; try lia; rewrite Q, R by lia; reflexivity.
Qed.

(** A SYN for a listener without a pending connection, from a 4-tuple not in use, opens. *)
Theorem tcp_syn_opens : forall N n tbl env g i t, 1 < N <= 1073741824 -> reach N n tbl -> only_for tbl i t g -> k_st t = LISTEN ->
  g_syn g = true -> g_ack g = false -> g_rst g = false -> g_dst g <> 0 -> e_local env (g_dst g) = true -> (k_bound t = 0 \/ k_bound t = g_dst g) ->
  exists t', step env tbl (ESeg g) = Some (set_slot tbl i t', [OSynAck i]) /\ k_st t' = SYN_RCVD /\ same_connection t' g
    /\ k_ack t' = tcp_seq_inc (g_seq g) 1 /\ k_una t' = e_isn env /\ k_seq t' = e_isn env /\ k_tmr t' = true /\ k_retr t' = 0 /\ k_lsn t' = k_lsn t.
Proof.
  intros N n tbl env g i t HN HRe HO HL HY HA HR HD HLoc HB. destruct (only_for_step env _ _ _ _ HO) as (others & Hoth & K).
  pose proof HO as (_ & _ & HP & _ & _ & HNF).
  assert (ND : dup_conn others (k_lport t) g = false).
  { unfold dup_conn. destruct (existsb _ others) eqn:EX; [|reflexivity]. exfalso. apply existsb_exists in EX as (c & HC & X).
    destruct (Hoth c HC) as (j & NJ & EJ).
    apply andb_prop in X as [X X4]. apply andb_prop in X as [X X3]. apply andb_prop in X as [X X2]. apply andb_prop in X as [X0 X1].
    pose proof (HNF j c NJ EJ) as NF. destruct NF as [NF|[NF|(NF & NS)]].
    - rewrite (dead_closed N c (reach_nth _ _ _ _ _ HN HRe EJ) NF) in X0. discriminate.
    - lia.
    - apply NS. unfold same_connection. lia. }
  set (u := peer_window (syn_options t g) g).
  assert (U : k_st u = LISTEN /\ k_bound u = k_bound t /\ k_lport u = k_lport t /\ k_lsn u = k_lsn t).
  { unfold u. destruct (pre_any t g) as (w & oo & c & ts & ->). cbn. auto. }
  destruct U as (U1 & U2 & U3 & U4).
  assert (EL : exists t', listen_syn env others u g = Some t' /\ k_st t' = SYN_RCVD /\ same_connection t' g /\ k_ack t' = tcp_seq_inc (g_seq g) 1 /\ k_una t' = e_isn env /\ k_seq t' = e_isn env /\ k_tmr t' = true /\ k_retr t' = 0 /\ k_lsn t' = k_lsn t).
  { unfold listen_syn. replace (g_dst g =? 0) with false by lia. rewrite U2, U3, ND, HLoc. cbn [negb].
    replace (negb (k_bound t =? 0) && negb (k_bound t =? g_dst g)) with false by lia.
    eexists. split; [reflexivity|]. unfold ctrl_start.
    match goal with |- context [process_ts ?v g] => destruct (process_ts_eq v g) as (o1 & v1 & l1 & -> & _) end. cbn. unfold same_connection, k_ack. cbn. repeat split; auto. }
  destruct EL as (t' & EL & R). exists t'. split; [|exact R]. apply (K _ _ true). unfold sock_input. rewrite HL, HA, HR. cbn [tst_eqb andb]. cbv zeta. fold u.
  rewrite U1, HY. cbn [tst_eqb andb]. rewrite EL. reflexivity.
Qed.

(** The acknowledgement of our SYN-ACK completes the handshake. *)
Theorem tcp_final_ack_establishes : forall N n tbl env g i t, 1 < N <= 1073741824 -> reach N n tbl -> only_for tbl i t g -> k_st t = SYN_RCVD ->
  g_syn g = false -> g_fin g = false -> g_rst g = false -> g_data g = [] -> g_seq g = k_ack t -> acks_syn t g ->
  exists t' o, step env tbl (ESeg g) = Some (set_slot tbl i t', o) /\ k_st t' = ESTABLISHED /\ k_una t' = g_ackn g /\ k_seq t' = g_ackn g /\ k_ack t' = k_ack t.
Proof.
  intros N n tbl env g i t HN HRe HO HL HY HF HR HD HS (HA & HK). destruct (only_for_step env _ _ _ _ HO) as (others & _ & K).
  pose proof HO as (Ht & _). pose proof (reach_nth _ _ _ _ _ HN HRe Ht) as (HI & _).
  destruct (pre_sync t g ltac:(congruence) ltac:(congruence)) as (w & EP & _).
  assert (AC : acceptable (set_win t w (k_wson t) (k_wsc t)) g = true).
  { apply (acc_at N); [exact HN|apply HI|exact HS|]. left. unfold g_len. rewrite HD, HY, HF. reflexivity. }
  assert (UI : is_u32 (k_una t)) by apply HI.
  assert (SR : exists t', synrcvd_input i (set_win t w (k_wson t) (k_wsc t)) g = Some (t', [], false) /\ k_st t' = ESTABLISHED /\ k_una t' = g_ackn g /\ k_seq t' = g_ackn g /\ k_ack t' = k_ack t).
  { unfold synrcvd_input. rewrite HY, HA, AC, HD, HF. cbn [andb negb]. cbn [set_win k_una]. rewrite inc1 by exact UI. change (2^32) with 4294967296 in HK. rewrite HK, Z.eqb_refl. cbn [negb].
    change (zlen (@nil Z)) with 0. cbn [Z.ltb Z.compare obind map]. eexists. split; [reflexivity|]. cbn. destruct (k_lsn t); cbn; auto. }
  destruct SR as (t' & SR & R). exists t', []. split; [|exact R]. apply (K _ _ false). unfold sock_input. rewrite EP. cbn [set_win k_st]. rewrite HL, HR, HY. cbn [tst_eqb andb]. cbv zeta.
  cbn [k_st set_win]. rewrite HL. fold (set_win t w (k_wson t) (k_wsc t)). change (mkSk _ _ _ _ _ _ _ _ _ _ _ _ _ _ _ _ _ _ _ _ w _ _ _ _ _) with (set_win t w (k_wson t) (k_wsc t)). rewrite SR. reflexivity.
Qed.
(** The SYN-ACK answering our SYN establishes the connection and is acknowledged. *)
Theorem tcp_synack_establishes : forall N n tbl env g i t, 1 < N <= 1073741824 -> reach N n tbl -> only_for tbl i t g -> k_st t = SYN_SENT ->
  g_syn g = true -> g_fin g = false -> g_rst g = false -> g_xflags g = false -> acks_syn t g ->
  exists t' o, step env tbl (ESeg g) = Some (set_slot tbl i t', o) /\ k_st t' = ESTABLISHED /\ k_una t' = g_ackn g /\ k_seq t' = g_ackn g
    /\ k_ack t' = tcp_seq_inc (g_seq g) 1 /\ In (OAck i) o.
Proof.
  intros N n tbl env g i t HN HRe HO HL HY HF HR HX (HA & HK). destruct (only_for_step env _ _ _ _ HO) as (others & _ & K).
  pose proof HO as (Ht & _). pose proof (reach_nth _ _ _ _ _ HN HRe Ht) as ((_ & _ & UI & _ & _ & UE & _) & _).
  set (u := peer_window (syn_options t g) g).
  assert (U : k_st u = SYN_SENT /\ k_una u = k_una t /\ k_seq u = k_seq t).
  { unfold u. destruct (pre_any t g) as (w & oo & c & ts & ->). cbn. auto. }
  destruct U as (U1 & U2 & U3). specialize (UE (or_introl HL)).
  set (v := synsent_synack u g).
  assert (V : k_st v = ESTABLISHED /\ k_una v = g_ackn g /\ k_seq v = g_ackn g /\ k_ack v = tcp_seq_inc (g_seq g) 1).
  { unfold v, synsent_synack. match goal with |- context [process_ts ?x g] => destruct (process_ts_eq x g) as (o1 & v1 & l1 & -> & _) end. cbn. unfold k_ack. cbn. auto. }
  assert (SI : exists o s, sync_input env i v g = Some (v, o, s)).
  { destruct V as (V1 & _). unfold sync_input. rewrite V1, HY. destruct (paws_check v g); eauto. destruct (negb (acceptable v g)); eauto. }
  destruct SI as (o & s & SI). exists v, (OAck i :: o). split; [|destruct V as (A & B & C & D); repeat split; auto; left; reflexivity].
  apply (K _ _ s). unfold sock_input. rewrite HL, HR, HA. cbn [tst_eqb andb]. cbv zeta. fold u. rewrite U1, HY, HF, HX. cbn [tst_eqb andb negb].
  assert (C : negb (tcp_seq_lt (k_una u) (g_ackn g)) || tcp_seq_lt (tcp_seq_inc (k_seq u) 1) (g_ackn g) = false).
  { rewrite U2, U3, <- UE, HK. change (2^32) with 4294967296. rewrite inc1 by exact UI. unfold is_u32 in UI. unfold tcp_seq_lt, tcp_seq_leq.
    assert (HM : (k_una t + 1) mod 4294967296 = k_una t + 1 \/ (k_una t = 4294967295 /\ (k_una t + 1) mod 4294967296 = 0)) by lia.
    set (m := (k_una t + 1) mod 4294967296) in *. clearbody m. rewrite (Z.eqb_refl m). cbn [negb andb]. rewrite orb_false_r.
    destruct (k_una t =? m) eqn:E1; destruct (k_una t <=? m) eqn:E2; lia. }
  rewrite C. fold v. rewrite (proj1 V). rewrite SI. reflexivity.
Qed.

(** In the synchronized states, an acceptable in-order segment (no data) acts: an
    acknowledgement of our FIN, a FIN, or both. *)
Definition ack_next (t : sk) (g : tseg) (s : tst) : Prop :=
  (k_st t = FIN_WAIT_1 /\ acks_fin t g /\ s = FIN_WAIT_2) \/ (k_st t = CLOSING /\ acks_fin t g /\ s = TIME_WAIT)
  \/ (k_st t = LAST_ACK /\ acks_fin t g /\ s = CLOSED) \/ (In (k_st t) [FIN_WAIT_1; CLOSING; LAST_ACK] /\ ~ acks_fin t g /\ s = k_st t)
  \/ (In (k_st t) [ESTABLISHED; CLOSE_WAIT; FIN_WAIT_2] /\ s = k_st t).
Definition fin_next (s : tst) : tst := match s with ESTABLISHED => CLOSE_WAIT | FIN_WAIT_1 => CLOSING | FIN_WAIT_2 => TIME_WAIT | x => x end.
Definition in_order (t : sk) (g : tseg) : Prop := g_syn g = false /\ g_rst g = false /\ g_ack g = true /\ g_data g = [] /\ g_seq g = k_ack t
  /\ (g_fin g = true -> 0 < rcv_wnd t) /\ (k_ts t = true -> exists v, g_ts g = Some v /\ (k_tsv t = true -> (v - ts_recent t) mod 2^32 < 2^31)).
Theorem tcp_close_handshake : forall N n tbl env g i t s, 1 < N <= 1073741824 -> reach N n tbl -> only_for tbl i t g -> seg_ok g -> in_order t g -> ack_next t g s ->
  (g_fin g = true -> k_st t <> LAST_ACK) ->
  exists t' o, step env tbl (ESeg g) = Some (set_slot tbl i t', o) /\ k_st t' = (if g_fin g then fin_next s else s)
    /\ (g_fin g = true -> k_ack t' = tcp_seq_inc (g_seq g) 1 /\ In (OAck i) o).
Proof.
  intros N n tbl env g i t s HN HRe HO HG (HY & HR & HA & HD & HS & HW & HTS) HNx HLA. destruct (only_for_step env _ _ _ _ HO) as (others & _ & K).
  pose proof HO as (Ht & _). pose proof (reach_nth _ _ _ _ _ HN HRe Ht) as (HI & _). destruct HI as (I1 & I2 & I3 & I4 & I5 & I6 & I7).
  assert (SS : In (k_st t) [ESTABLISHED; CLOSE_WAIT; FIN_WAIT_1; FIN_WAIT_2; CLOSING; LAST_ACK]) by (unfold ack_next in HNx; cbn in *; intuition).
  assert (NL : k_st t <> LISTEN /\ k_st t <> SYN_SENT /\ k_st t <> SYN_RCVD) by (cbn in SS; intuition congruence).
  destruct NL as (NL1 & NL2 & NL3).
  destruct (pre_sync t g NL1 NL2) as (w & EP & _). set (u := set_win t w (k_wson t) (k_wsc t)) in *.
  assert (US : k_st u = k_st t /\ k_ack u = k_ack t /\ k_last u = k_last t /\ k_rx u = k_rx t) by (unfold u, k_ack; cbn; auto). destruct US as (US & UA & UL & UR).
  assert (AC : acceptable u g = true).
  { apply (acc_at N); [exact HN|exact I1|exact HS|]. unfold g_len. rewrite HD, HY. destruct (g_fin g); [right; apply HW; reflexivity|left; reflexivity]. }
  assert (PW : paws_check u g = PawsOk).
  { unfold paws_check, u. cbn [set_win k_ts k_tsv k_lts]. destruct (k_ts t); cbn [negb]; [|reflexivity]. destruct (HTS eq_refl) as (v & EV & HV). rewrite EV.
    destruct (k_tsv t); cbn [andb]; [|reflexivity]. specialize (HV eq_refl). fold (ts_recent t).
    assert (RV : is_u32 (ts_recent t)) by apply bswap_u32. assert (VV : is_u32 v) by (destruct HG as (_ & _ & _ & HGT); apply HGT; exact EV). unfold is_u32 in *.
    set (y := ts_recent t) in *. clearbody y. change (2^32) with 4294967296 in *. change (2^31) with 2147483648 in *.
    assert (E : tcp_seq_lt v y = false) by (unfold tcp_seq_lt, tcp_seq_leq; destruct (v <=? y) eqn:E; lia). rewrite E. reflexivity. }
  assert (FC : fin_cov u g = true <-> acks_fin t g).
  { unfold fin_cov, acks_fin. rewrite UL. rewrite at_or_after_inc; [tauto|exact (proj1 (proj2 HG))|exact I4]. }
  set (t1 := tcp_ack (e_infl env) u g).
  assert (T1 : k_st t1 = s).
  { unfold t1. rewrite tcp_ack_st, US. unfold ack_next in HNx. destruct (fin_cov u g) eqn:EF; destruct HNx as [(A & B & ->)|[(A & B & ->)|[(A & B & ->)|[(A & B & ->)|(A & ->)]]]]; cbn in A;
      try (rewrite A; first [reflexivity | exfalso; rewrite <- FC in B; discriminate B]); try (exfalso; apply B; apply FC; reflexivity);
      repeat destruct A as [A|A]; try (rewrite <- A; reflexivity); destruct A. }
  destruct (tst_eqb (k_st t) LAST_ACK) eqn:EL.
  { apply tst_eqb_true in EL. assert (HF : g_fin g = false) by (destruct (g_fin g); [specialize (HLA eq_refl); congruence|reflexivity]). rewrite HF.
    exists (if tst_eqb (k_st t1) CLOSED then t1 else process_ts t1 g), []. split; [|split; [destruct (tst_eqb _ _); rewrite ?process_ts_st; exact T1|discriminate]].
    apply (K _ _ false). unfold sock_input. rewrite EP. cbv zeta. rewrite US, EL, HR, HY. cbn [tst_eqb andb]. unfold sync_input. rewrite US, EL, PW, AC, HY, HA. cbn [negb obind fst snd app]. reflexivity. }
  apply tst_eqb_false in EL.
  set (t2 := process_ts t1 g).
  assert (T2 : k_st t2 = s /\ k_ack t2 = k_ack t).
  { unfold t2. rewrite process_ts_st. split; [exact T1|]. destruct (process_ts_eq t1 g) as (o1 & v1 & l1 & -> & _). unfold k_ack. cbn [set_ts k_rx]. unfold t1. rewrite tcp_ack_rx by congruence. reflexivity. }
  destruct T2 as (T2 & T3).
  destruct (fin_input i (set_rx t2 (k_rx t2)) g) as [[t3 o3] s3] eqn:EF.
  assert (DI : sync_input env i u g = Some (t3, o3, s3)).
  { unfold sync_input. rewrite US. assert (X : forall z, (0 <? zlen (@nil Z)) && z = false) by reflexivity.
    assert (D : match paws_check u g with
      | PawsAckDrop => Some (u, [OAck i], false)
      | PawsDrop => Some (u, [], false)
      | PawsOk =>
        if negb (acceptable u g) then Some (u, [OAck i], false)
        else if g_syn g then Some (u, [OAck i], false)
        else if negb (g_ack g) then Some (u, [], false)
        else
          let t1 := process_ts (tcp_ack (e_infl env) u g) g in
          if (0 <? zlen (g_data g)) && tst_eqb (k_st t1) CLOSING then Some (t1, [], true)
          else
            do (rx, acks) <- (if (0 <? zlen (g_data g)) && rx_state (k_st t1) then tcp_recv (k_rx t1) (g_seq g) (g_data g) else Some (k_rx t1, []));
            let '(t2, o, stop) := fin_input i (set_rx t1 rx) g in
            Some (t2, map (fun _ => OAck i) acks ++ o, stop)
      end = Some (t3, o3, s3)).
    { cbv zeta. rewrite PW, AC, HY, HA, HD, !X. cbn [negb obind map app]. fold t1. fold t2. rewrite EF. reflexivity. }
    cbn in SS. repeat destruct SS as [SS|SS]; try (rewrite <- SS; exact D); try congruence. destruct SS. }
  exists t3, o3. split.
  { apply (K _ _ s3). unfold sock_input. rewrite EP. cbv zeta. assert (LL : tst_eqb (k_st t) LISTEN = false) by (apply tst_eqb_false; exact NL1).
    rewrite US, LL, HR, HY. cbn [andb]. replace (tst_eqb (k_st t) SYN_SENT) with false by (symmetry; apply tst_eqb_false; exact NL2). cbn [andb].
    rewrite US. destruct (k_st t) eqn:EK; try congruence; rewrite DI; reflexivity. }
  unfold fin_input in EF. rewrite HD in EF. change (zlen (@nil Z)) with 0 in EF. cbn [Z.eqb Z.ltb Z.compare andb] in EF.
  destruct (g_fin g) eqn:EG; [|inversion EF; subst t3 o3 s3; split; [exact T2|discriminate]].
  replace (k_ack (set_rx t2 (k_rx t2))) with (g_seq g) in EF by (unfold k_ack in *; cbn [set_rx k_rx]; congruence). rewrite Z.eqb_refl in EF. cbn [negb orb] in EF.
  inversion EF; subst t3 o3 s3. split; [|split; [reflexivity|left; reflexivity]].
  cbn [set_app set_ack set_rx k_st]. rewrite T2. destruct s; cbn [fin_next set_st k_st fw2_stop set_tm]; auto.
Qed.

(** A reset at RCV.NXT closes a synchronized connection. *)
Theorem tcp_reset_closes : forall tbl env g i t, only_for tbl i t g -> ~ In (k_st t) [LISTEN; SYN_SENT; SYN_RCVD] -> g_rst g = true -> g_seq g = k_ack t ->
  exists t', step env tbl (ESeg g) = Some (set_slot tbl i t', []) /\ k_st t' = CLOSED /\ (k_cb t = false -> k_live t' = false).
Proof.
  intros tbl env g i t HO HN HR HS. destruct (only_for_step env _ _ _ _ HO) as (others & _ & K). pose proof HO as (_ & _ & _ & HC & _).
  exists (close_socket t). split; [|split; [apply close_socket_st|intros X; unfold close_socket; rewrite X; reflexivity]].
  assert (N1 : k_st t <> LISTEN /\ k_st t <> SYN_SENT /\ k_st t <> SYN_RCVD) by (cbn in HN; intuition).
  apply (K _ _ false). unfold sock_input. replace (tst_eqb (k_st t) LISTEN) with false by (symmetry; apply tst_eqb_false; apply N1). cbn [andb]. cbv zeta.
  destruct (pre_sync t g ltac:(apply N1) ltac:(apply N1)) as (w & EP & EW). rewrite EP, HR. rewrite (EW HR).
  replace (set_win t (k_rwnd t) (k_wson t) (k_wsc t)) with t by (destruct t; reflexivity). unfold rst_input. rewrite HS, Z.eqb_refl. cbn [negb].
  destruct N1 as (A & B & C). destruct (k_st t); try congruence; reflexivity.
Qed.

(** ** Timers *)
(** A half-open connection and one waiting for the peer's FIN always have a running timer. *)
Theorem tcp_half_open_timer : forall N n tbl i t, 1 < N <= 1073741824 -> reach N n tbl -> nth_error tbl i = Some t ->
  In (k_st t) [SYN_SENT; SYN_RCVD; FIN_WAIT_2] -> k_tmr t = true.
Proof.
  intros N n tbl i t HN HR Ht HI. destruct (reach_nth _ _ _ _ _ HN HR Ht) as (_ & T1 & T2 & _).
  cbn in HI. destruct HI as [H|[H|[H|[]]]]; [apply T1; auto|apply T1; auto|apply T2; auto].
Qed.
(** Nine expiries (the retransmission being queued each time) end every half-open
    connection; one expiry ends FIN_WAIT_2. *)
Definition fire (t : sk) (x : tenv * (bool * bool * bool)) : sk :=
  if k_tmr t then rto_cb (fst x) (fst (fst (snd x))) (snd (fst (snd x))) (snd (snd x)) true t else t.
Lemma fire_half env x t : k_fw2 t = false -> k_pre t = false -> k_tmr t = true -> In (k_st t) [SYN_SENT; SYN_RCVD] ->
  let t' := fire t (env, x) in
  (k_st t' = k_st t /\ k_retr t' = k_retr t + 1 /\ k_retr t < 8 /\ k_fw2 t' = false /\ k_pre t' = false /\ k_tmr t' = true)
  \/ (In (k_st t') [CLOSED; LISTEN] /\ k_tmr t' = false).
Proof.
  intros H1 H2 H3 H4. cbv zeta. unfold fire. rewrite H3. destruct x as [[p gv] r]. cbn [fst snd]. unfold rto_cb. cbn [set_tm k_fw2 k_pre k_st k_ctrl k_retr k_lsn]. rewrite H1, H2.
  assert (NC : forall m c r f pr, needs_ctrl (set_tm t m c r f pr) p = true) by (intros; unfold needs_ctrl; cbn [set_tm k_st]; cbn in H4; destruct H4 as [<-|[<-|[]]]; reflexivity).
  rewrite NC. cbn [orb negb]. destruct (CTRL_MAXRTX <=? k_retr t) eqn:E.
  - right. destruct (k_lsn t && tst_eqb (k_st t) SYN_RCVD); [cbn; auto|]. rewrite close_socket_st. split; [cbn; auto|]. unfold close_socket. destruct (k_cb _); reflexivity.
  - left. apply Z.leb_gt in E. change CTRL_MAXRTX with 8 in E. cbn in H4. destruct H4 as [H4|[H4|[]]]; rewrite <- H4; cbn; rewrite ?H2, <- ?H4; repeat split; auto.
Qed.
Lemma fire_idle xs : forall t, k_tmr t = false -> fold_left fire xs t = t.
Proof. induction xs as [|x xs IH]; intros t H; cbn [fold_left]; [reflexivity|]. unfold fire at 2. rewrite H. apply IH; exact H. Qed.
Theorem tcp_half_open_bounded : forall N n tbl i t xs, 1 < N <= 1073741824 -> reach N n tbl -> nth_error tbl i = Some t ->
  (In (k_st t) [SYN_SENT; SYN_RCVD] -> 9 <= zlen xs -> In (k_st (fold_left fire xs t)) [CLOSED; LISTEN]) /\
  (k_st t = FIN_WAIT_2 -> forall x, k_st (fire t x) = CLOSED).
Proof.
  intros N n tbl i t xs HN HR Ht. destruct (reach_nth _ _ _ _ _ HN HR Ht) as (_ & T1 & T2 & T3 & _ & _ & T4). split.
  - intros HS HL. assert (A : k_tmr t = true /\ k_pre t = false /\ k_fw2 t = false) by (cbn in HS; destruct HS as [H|[H|[]]]; (split; [apply T1; auto|apply T3; auto])).
    destruct A as (A1 & A2 & A3). clear Ht T1 T2 T3.
    assert (G : forall xs t, k_tmr t = true -> k_pre t = false -> k_fw2 t = false -> In (k_st t) [SYN_SENT; SYN_RCVD] ->
      In (k_st (fold_left fire xs t)) [CLOSED; LISTEN] \/ k_retr t + zlen xs <= 8 \/ xs = []).
    { clear. induction xs as [|[env x] xs IH]; intros t H1 H2 H3 H4; [right; right; reflexivity|]. cbn [fold_left].
      destruct (fire_half env x t H3 H2 H1 H4) as [(B1 & B2 & B3 & B4 & B5 & B6)|(B1 & B2)].
      - destruct (IH (fire t (env, x)) B6 B5 B4 ltac:(rewrite B1; exact H4)) as [C|[C| ->]]; [left; exact C|right; left; rewrite B2 in C; rewrite zlen_cons; lia|right; left; rewrite zlen_cons; change (zlen (@nil (tenv * (bool * bool * bool)))) with 0; lia].
      - left. rewrite fire_idle by exact B2. exact B1. }
    destruct (G xs t A1 A2 A3 HS) as [C|[C| ->]]; [exact C|lia|change (zlen (@nil (tenv * (bool * bool * bool)))) with 0 in HL; lia].
  - intros HS x. destruct (T2 HS) as (A & B). unfold fire. rewrite A. unfold rto_cb. cbn [set_tm k_fw2 k_st]. rewrite B, HS. cbn [tst_eqb]. apply close_socket_st.
Qed.

(** ** Passive opens never duplicate a 4-tuple *)
Definition same_tuple (a b : sk) : Prop := k_lport a = k_lport b /\ k_rport a = k_rport b /\ k_lip a = k_lip b /\ k_rip a = k_rip b.
Lemma sock_input_open N env others i t g t' o s : 1 < N <= 1073741824 -> sk_inv N t -> seg_ok g -> addressed t g = true ->
  sock_input env others i t g = Some (t', o, s) -> k_st t = LISTEN -> k_st t' = SYN_RCVD ->
  s = true /\ dup_conn others (k_lport t) g = false /\ k_lport t' = k_lport t /\ k_rport t' = g_sport g /\ k_lip t' = g_dst g /\ k_rip t' = g_src g.
Proof.
  intros HN HI HG HA H HL HS. pose proof (sock_input_cases N env others i t g t' o s HN HI HG HA H ltac:(congruence)) as E. rewrite HL, HS in E. inversion E as [A B C D| | | | | | | | | | | | |]; subst.
  unfold sock_input in H. rewrite HL, C, D in H. cbn [tst_eqb andb] in H. cbv zeta in H.
  set (u := peer_window (syn_options t g) g) in *.
  assert (U : k_st u = LISTEN /\ k_lport u = k_lport t) by (unfold u; destruct (pre_any t g) as (w & oo & c & ts & ->); cbn; auto). destruct U as (U1 & U2).
  rewrite U1, B in H. cbn [tst_eqb andb] in H. destruct (listen_syn env others u g) as [t2|] eqn:EL; inversion H; subst; [|congruence].
  unfold listen_syn in EL. destruct (g_dst g =? 0); [discriminate|]. destruct (negb _ && _); [discriminate|]. rewrite U2 in EL. destruct (dup_conn others (k_lport t) g); [discriminate|].
  destruct (negb (e_local env (g_dst g))); [discriminate|]. inversion EL. unfold ctrl_start.
  match goal with |- context [process_ts ?v g] => destruct (process_ts_eq v g) as (o1 & v1 & l1 & -> & _) end. cbn. repeat split; auto.
Qed.
Lemma input_loop_open N env g : 1 < N <= 1073741824 -> seg_ok g -> forall after before tbl' o m, Forall (sk_inv N) after -> input_loop env g before after = Some (tbl', o, m) ->
  forall i t t', nth_error after i = Some t -> nth_error tbl' (length before + i) = Some t' -> k_st t = LISTEN -> k_st t' = SYN_RCVD ->
  forall j u, j <> (length before + i)%nat -> nth_error tbl' j = Some u -> conn_state (k_st u) = true -> ~ same_tuple u t'.
Proof.
  intros HN HG. induction after as [|t0 after IH]; intros before tbl' o m HF H i t t' Ht Ht' HL HS j u NJ HU HC; [destruct i; discriminate|].
  cbn [input_loop] in H. pose proof (Forall_inv HF) as F1. pose proof (Forall_inv_tail HF) as F2.
  destruct (addressed t0 g) eqn:EA.
  - destruct (sock_input env (before ++ after) (length before) t0 g) as [[[t1 o1] s1]|] eqn:ES; cbn [obind fst snd] in H; [|discriminate]. destruct s1.
    + inversion H; subst tbl'. clear H. rewrite nth_error_app2 in Ht' by lia. replace (length before + i - length before)%nat with i in Ht' by lia.
      destruct i; cbn [nth_error] in Ht, Ht'; [|congruence]. inversion Ht; subst t0. inversion Ht'; subst t1.
      destruct (sock_input_open _ _ _ _ _ _ _ _ _ HN F1 HG EA ES HL HS) as (_ & D & E1 & E2 & E3 & E4).
      assert (IU : In u (before ++ after)).
      { apply in_or_app. destruct (Nat.lt_ge_cases j (length before)) as [LJ|LJ].
        - rewrite nth_error_app1 in HU by exact LJ. left. eapply nth_error_In; exact HU.
        - rewrite nth_error_app2 in HU by exact LJ. destruct (j - length before)%nat eqn:EJ; [lia|]. right. eapply nth_error_In; exact HU. }
      intros (S1 & S2 & S3 & S4). unfold dup_conn in D. assert (X : existsb (fun c => conn_state (k_st c) && (k_lport c =? k_lport t) && (k_rport c =? g_sport g) && (k_rip c =? g_src g) && (k_lip c =? g_dst g)) (before ++ after) = true).
      { apply existsb_exists. exists u. split; [exact IU|]. rewrite HC. cbn [andb]. lia. }
      congruence.
    + destruct (input_loop env g (before ++ [t1]) after) as [[[tb2 o2] m2]|] eqn:E2; cbn [obind fst snd] in H; [|discriminate]. inversion H; subst tbl' o m. clear H.
      destruct (input_loop_nth _ _ _ _ _ _ _ E2) as (_ & P & _). destruct i.
      * cbn [nth_error] in Ht. inversion Ht; subst t0. rewrite P in Ht' by (rewrite app_length; cbn; lia). rewrite nth_error_app2 in Ht' by lia.
        replace (length before + 0 - length before)%nat with 0%nat in Ht' by lia. inversion Ht'; subst t1.
        destruct (sock_input_open _ _ _ _ _ _ _ _ _ HN F1 HG EA ES HL HS) as (X & _). discriminate.
      * assert (EQ : (length before + S i)%nat = (length (before ++ [t1]) + i)%nat) by (rewrite app_length; cbn; lia). rewrite EQ in *. cbn [nth_error] in Ht.
        eapply IH; eassumption.
  - assert (EQ : forall k, (length before + S k)%nat = (length (before ++ [t0]) + k)%nat) by (intros; rewrite app_length; cbn; lia).
    destruct i.
    + cbn [nth_error] in Ht. inversion Ht; subst t0. destruct (input_loop_nth _ _ _ _ _ _ _ H) as (_ & P & _).
      rewrite P in Ht' by (rewrite app_length; cbn; lia). rewrite nth_error_app2 in Ht' by lia. replace (length before + 0 - length before)%nat with 0%nat in Ht' by lia. inversion Ht'; subst. congruence.
    + rewrite EQ in *. cbn [nth_error] in Ht. eapply IH; eassumption.
Qed.
(** A SYN opens a connection only if no other socket of the table has its 4-tuple.  Missing
    for the full claim: connect() (see [unique_four_tuple_refuted]). *)
Theorem passive_open_unique_partial : forall N n tbl env g tbl' o i t t' j u, 1 < N <= 1073741824 -> reach N n tbl -> env_ok N env -> seg_ok g ->
  step env tbl (ESeg g) = Some (tbl', o) -> nth_error tbl i = Some t -> nth_error tbl' i = Some t' -> k_st t = LISTEN -> k_st t' = SYN_RCVD ->
  j <> i -> nth_error tbl' j = Some u -> conn_state (k_st u) = true -> ~ same_tuple u t'.
Proof.
  intros N n tbl env g tbl' o i t t' j u HN HR HE HG HS Ht Ht' HL HSR NJ HU HC. cbn [step] in HS. unfold tcp_input in HS.
  destruct (reach_good _ _ _ HN HR) as (F & _). assert (FI : Forall (sk_inv N) tbl) by (eapply Forall_impl; [|exact F]; intros x H; apply H).
  destruct (input_loop env g [] tbl) as [[[tb o1] m]|] eqn:E; cbn [obind fst snd] in HS; [|discriminate]. inversion HS; subst tb.
  exact (input_loop_open N env g HN HG tbl [] tbl' o1 m FI E i t t' Ht Ht' HL HSR j u NJ HU HC).
Qed.

(** ** Concrete histories *)
Definition u32b (x : Z) : bool := (0 <=? x) && (x <? 4294967296).
Definition ev_okb (tbl : list sk) (e : ev) : bool :=
  match e with
  | ESeg g => u32b (g_seq g) && u32b (g_ackn g) && (zlen (g_data g) <? 65536) && match g_ts g with Some v => u32b v | None => true end
  | ERecv _ _ len => u32b len
  | EListen i _ | EConnect i _ _ _ _ _ _ _ => match nth_error tbl i with Some t => negb (tst_eqb (k_st t) CLOSED && k_evc t) | None => true end
  | _ => true
  end.
Lemma ev_okb_ok tbl e : ev_okb tbl e = true -> ev_ok tbl e.
Proof.
  destruct e; cbn [ev_okb ev_ok]; intros H; auto.
  - intros t E ES. rewrite E, ES in H. cbn in H. destruct (k_evc t); [discriminate|reflexivity].
  - intros t E ES. rewrite E, ES in H. cbn in H. destruct (k_evc t); [discriminate|reflexivity].
  - unfold u32b in H. lia.
  - unfold seg_ok, is_u32, u32b in *. apply andb_prop in H as [H H4]. apply andb_prop in H as [H H3]. apply andb_prop in H as [H H2].
    split; [lia|]. split; [lia|]. split; [lia|]. intros v E. rewrite E in H4. lia.
Qed.
Definition xenv (isn : Z) (infl : bool) : tenv := mkEnv (fun a => a =? 10) (fun _ => false) isn (repeat 0 64) infl.
Fixpoint run (tbl : list sk) (es : list (Z * ev)) : option (list sk * list out) :=
  match es with
  | [] => Some (tbl, [])
  | (isn, e) :: es' => if ev_okb tbl e && u32b isn then do (tbl', o) <- step (xenv isn false) tbl e; do (tb, o') <- run tbl' es'; Some (tb, o ++ o') else None
  end.
Lemma run_reach n es : forall tbl tbl' o, reach 64 n tbl -> run tbl es = Some (tbl', o) -> reach 64 n tbl'.
Proof.
  induction es as [|[isn e] es IH]; intros tbl tbl' o HR H; cbn [run] in H; [inversion H; subst; exact HR|].
  destruct (ev_okb tbl e) eqn:E1; cbn [andb] in H; [|discriminate]. destruct (u32b isn) eqn:E2; [|discriminate].
  destruct (step _ tbl e) as [[tb o1]|] eqn:E3; cbn [obind] in H; [|discriminate]. destruct (run tb es) as [[tb2 o2]|] eqn:E4; cbn [obind] in H; inversion H; subst.
  eapply IH; [|exact E4]. eapply R_step; [exact HR| |apply ev_okb_ok; exact E1|exact E3].
  split; [unfold u32b, is_u32 in *; cbn; lia|reflexivity].
Qed.
Definition hist (es : list (Z * ev)) : list sk := match run (repeat sk0 4) es with Some (t, _) => t | None => [] end.
Definition outs (es : list (Z * ev)) : list out := match run (repeat sk0 4) es with Some (_, o) => o | None => [] end.
Definition ok_hist (es : list (Z * ev)) : bool := match run (repeat sk0 4) es with Some _ => true | None => false end.
Lemma hist_reach es : ok_hist es = true -> reach 64 4 (hist es).
Proof. unfold ok_hist, hist. destruct (run _ es) as [[t o]|] eqn:E; [|discriminate]. intros _. eapply run_reach; [apply R_init|exact E]. Qed.
Definition slot (es : list (Z * ev)) (i : nat) : sk := nth i (hist es) sk0.
(** A segment from peer 20:5000 to 10:80. *)
Definition sg (seq ackn : Z) (fin syn rst ack : bool) (data : list Z) : ev := ESeg (mkTseg 20 10 5000 80 seq ackn fin syn rst ack false 4096 data None None).
(** socket, bind to port 80, listen; a SYN arrives; accept; the final ACK. *)
Definition h_listen : list (Z * ev) := [(1, ESocket); (1, EBind 0 0 10 80 false); (1, EListen 0 false)].
Definition h_syn := h_listen ++ [(1000, sg 500 0 false true false false [])].
Definition h_accept := h_syn ++ [(7, EAccept 0 true false)].
Definition h_est := h_accept ++ [(7, sg 501 1001 false false false true [])].
(** The peer sends five bytes and closes; we close. *)
Definition h_cw := h_est ++ [(7, sg 501 1001 false false false true [1;2;3;4;5]); (7, sg 506 1001 true false false true [])].
Definition h_la := h_cw ++ [(7, EClose 1 true)].
(** We close first. *)
Definition h_fw1 := h_est ++ [(7, EClose 1 true)].
Definition h_fw2 := h_fw1 ++ [(7, sg 501 1002 false false false true [])].
Definition h_tw := h_fw2 ++ [(7, sg 501 1002 true false false true [])].
(** An active open from port 3000 (10:3000 -> 20:80). *)
Definition h_syn_sent : list (Z * ev) := [(9, ESocket); (2000, EConnect 0 false false true 10 20 80 3000)].
Definition synack := ESeg (mkTseg 20 10 80 3000 700 2001 false true false true false 4096 [] None None).
Example tcp_state_histories :
  forallb ok_hist [h_listen; h_syn; h_accept; h_est; h_cw; h_la; h_fw1; h_fw2; h_tw; h_syn_sent] = true
  /\ map (fun h => (k_st (slot h 0), k_st (slot h 1))) [h_listen; h_syn; h_accept; h_est; h_cw; h_la; h_fw1; h_fw2; h_tw; h_syn_sent]
     = [(LISTEN, CLOSED); (SYN_RCVD, CLOSED); (LISTEN, SYN_RCVD); (LISTEN, ESTABLISHED); (LISTEN, CLOSE_WAIT); (LISTEN, LAST_ACK); (LISTEN, FIN_WAIT_1);
        (LISTEN, FIN_WAIT_2); (LISTEN, TIME_WAIT); (SYN_SENT, CLOSED)]
  /\ k_st (slot (h_syn_sent ++ [(7, synack)]) 0) = ESTABLISHED /\ k_st (slot (h_la ++ [(7, sg 507 1002 false false false true [])]) 1) = CLOSED
  /\ k_ack (slot h_cw 1) = 507 /\ k_una (slot h_fw2 1) = 1001.
Proof. vm_compute. repeat split; reflexivity. Qed.

(** The hypotheses of the progress theorems are met: the peer's FIN+ACK in FIN_WAIT_1 once
    the listener has been closed. *)
Definition h_one := h_fw1 ++ [(7, EClose 0 true)].
Definition fin_ack : tseg := mkTseg 20 10 5000 80 501 1002 true false false true false 4096 [] None None.
Example only_for_met : ok_hist h_one = true /\ only_for (hist h_one) 1 (slot h_one 1) fin_ack /\ seg_ok fin_ack /\ in_order (slot h_one 1) fin_ack
  /\ ack_next (slot h_one 1) fin_ack FIN_WAIT_2 /\ k_st (slot (h_one ++ [(7, ESeg fin_ack)]) 1) = TIME_WAIT.
Proof.
  assert (A : acks_fin (slot h_one 1) fin_ack) by (split; [reflexivity|vm_compute; discriminate]).
  split; [vm_compute; reflexivity|]. split.
  { split; [vm_compute; reflexivity|]. split; [vm_compute; reflexivity|]. split; [vm_compute; reflexivity|]. split; [vm_compute; discriminate|].
    split; [intros _; vm_compute; repeat split; auto|]. intros j u NJ E. left.
    destruct j as [|[|[|[|j]]]]; [vm_compute in E; inversion E; reflexivity|congruence|vm_compute in E; inversion E; reflexivity|vm_compute in E; inversion E; reflexivity|].
    vm_compute in E. destruct j; discriminate. }
  split; [split; [vm_compute; split; congruence|]; split; [vm_compute; split; congruence|]; split; [vm_compute; reflexivity|discriminate]|].
  split; [do 4 (split; [reflexivity|]); split; [vm_compute; reflexivity|]; split; [intros _; vm_compute; reflexivity|intros X; vm_compute in X; discriminate]|].
  split; [left; split; [vm_compute; reflexivity|split; [exact A|reflexivity]]|vm_compute; reflexivity].
Qed.

(** ** Refuted claims *)
(** "An unacceptable segment changes nothing": a segment far outside the window sets the
    peer window, here to 0 (wolfip.c:5473-5485 run before the acceptability test). *)
Definition blind : tseg := mkTseg 20 10 5000 80 900000 1001 false false false true false 0 [] None None.
Theorem unacceptable_segment_no_effect_refuted :
  ~ (forall N n tbl env g tbl' o i t, 1 < N <= 1073741824 -> reach N n tbl -> env_ok N env -> seg_ok g -> step env tbl (ESeg g) = Some (tbl', o) ->
       nth_error tbl i = Some t -> k_st t = ESTABLISHED -> g_rst g = false -> ~ seq_acceptable t g -> nth_error tbl' i = Some t).
Proof.
  intros H. specialize (H 64 4%nat (hist h_est) (xenv 7 false) blind (hist (h_est ++ [(7, ESeg blind)])) [OAck 1] 1%nat (slot h_est 1)).
  assert (E : nth_error (hist (h_est ++ [(7, ESeg blind)])) 1 = Some (slot h_est 1)).
  { apply H; [lia|apply hist_reach; vm_compute; reflexivity|split; [vm_compute; split; congruence|reflexivity]| |vm_compute; reflexivity|vm_compute; reflexivity|vm_compute; reflexivity|reflexivity|].
    - split; [vm_compute; split; congruence|]; split; [vm_compute; split; congruence|]; split; [vm_compute; reflexivity|discriminate].
    - intros [[_ X]|[X|[X _]]]; vm_compute in X; discriminate. }
  apply (f_equal (option_map k_rwnd)) in E. vm_compute in E. discriminate.
Qed.
(** "Only the acknowledgement of our FIN completes the close": in LAST_ACK an
    acknowledgement of octets never sent does. *)
Theorem last_ack_exact_refuted :
  ~ (forall N n tbl env g tbl' o i t t', 1 < N <= 1073741824 -> reach N n tbl -> env_ok N env -> seg_ok g -> step env tbl (ESeg g) = Some (tbl', o) ->
       nth_error tbl i = Some t -> nth_error tbl' i = Some t' -> k_st t = LAST_ACK -> k_st t' = CLOSED -> g_rst g = false -> g_ackn g = (k_last t + 1) mod 2^32).
Proof.
  intros H. pose (g := mkTseg 20 10 5000 80 507 50000 false false false true false 4096 [] None None).
  specialize (H 64 4%nat (hist h_la) (xenv 7 false) g (hist (h_la ++ [(7, ESeg g)])) (skipn (length (outs h_la)) (outs (h_la ++ [(7, ESeg g)]))) 1%nat (slot h_la 1) (slot (h_la ++ [(7, ESeg g)]) 1)).
  assert (E : 50000 = (k_last (slot h_la 1) + 1) mod 2^32).
  { apply H; [lia|apply hist_reach; vm_compute; reflexivity|split; [vm_compute; split; congruence|reflexivity]| |vm_compute; reflexivity|vm_compute; reflexivity|vm_compute; reflexivity|vm_compute; reflexivity|vm_compute; reflexivity|reflexivity].
    split; [vm_compute; split; congruence|]; split; [vm_compute; split; congruence|]; split; [vm_compute; reflexivity|discriminate]. }
  vm_compute in E. discriminate.
Qed.
(** "After the peer's FIN RCV.NXT no longer moves": a second FIN in CLOSE_WAIT advances it. *)
Theorem second_fin_ignored_refuted :
  ~ (forall N n tbl env g tbl' o i t t', 1 < N <= 1073741824 -> reach N n tbl -> env_ok N env -> seg_ok g -> step env tbl (ESeg g) = Some (tbl', o) ->
       nth_error tbl i = Some t -> nth_error tbl' i = Some t' -> k_st t = CLOSE_WAIT -> k_st t' = CLOSE_WAIT -> k_ack t' = k_ack t).
Proof.
  intros H. pose (g := mkTseg 20 10 5000 80 507 1001 true false false true false 4096 [] None None).
  specialize (H 64 4%nat (hist h_cw) (xenv 7 false) g (hist (h_cw ++ [(7, ESeg g)])) (skipn (length (outs h_cw)) (outs (h_cw ++ [(7, ESeg g)]))) 1%nat (slot h_cw 1) (slot (h_cw ++ [(7, ESeg g)]) 1)).
  assert (E : k_ack (slot (h_cw ++ [(7, ESeg g)]) 1) = k_ack (slot h_cw 1)).
  { apply H; [lia|apply hist_reach; vm_compute; reflexivity|split; [vm_compute; split; congruence|reflexivity]| |vm_compute; reflexivity|vm_compute; reflexivity|vm_compute; reflexivity|vm_compute; reflexivity|vm_compute; reflexivity].
    split; [vm_compute; split; congruence|]; split; [vm_compute; split; congruence|]; split; [vm_compute; reflexivity|discriminate]. }
  vm_compute in E. discriminate.
Qed.
(** "A listening port recovers by itself": a peer that completes the handshake and closes
    before accept() leaves the listener in CLOSE_WAIT, and from there it can only go to
    LAST_ACK and CLOSED. *)
Theorem close_wait_never_listens : forall N n tbl env e tbl' o i t t', 1 < N <= 1073741824 -> reach N n tbl -> env_ok N env -> ev_ok tbl e ->
  step env tbl e = Some (tbl', o) -> nth_error tbl i = Some t -> nth_error tbl' i = Some t' -> k_st t = CLOSE_WAIT ->
  k_st t' = CLOSE_WAIT \/ (k_st t' = LAST_ACK /\ e = EClose i true) \/ (k_st t' = CLOSED /\ exists g, e = ESeg g /\ g_rst g = true).
Proof.
  intros N n tbl env e tbl' o i t t' HN HR HE HO HS Ht Ht' HT.
  assert (D : {k_st t' = CLOSE_WAIT} + {k_st t' <> CLOSE_WAIT}) by (destruct (k_st t'); auto; right; discriminate). destruct D as [D|HC]; [auto|right].
  destruct (is_seg e) eqn:ES.
  - destruct e; try discriminate. destruct (tcp_segment_transitions N n tbl env g tbl' o i t t' HN HR HE HO HS Ht Ht' ltac:(congruence)) as (_ & K).
    rewrite HT in K. inversion K; subst. right. split; [reflexivity|eauto].
  - destruct (tcp_other_transitions N n tbl env e tbl' o i t t' HN HR HE HO ES HS Ht Ht' ltac:(congruence)) as [(_ & K)|(HL & _)].
    + rewrite HT in K. inversion K; subst; try (repeat match goal with H : In _ _ |- _ => cbn in H end; exfalso; intuition discriminate). left. auto.
    + pose proof (dead_closed N t (reach_nth _ _ _ _ _ HN HR Ht) HL). congruence.
Qed.
Definition h_pinned := h_syn ++ [(7, sg 501 1001 false false false true []); (7, sg 501 1001 true false false true []); (7, EAccept 0 true false); (7, ETimer 0 false false false true); (7, EAccept 0 true false)].
Theorem listener_recovers_refuted : exists tbl t, reach 64 4 tbl /\ nth_error tbl 0 = Some t /\ k_lsn t = true /\ k_st t = CLOSE_WAIT /\ k_tmr t = false.
Proof.
  exists (hist h_pinned), (slot h_pinned 0). split; [apply hist_reach; vm_compute; reflexivity|]. vm_compute. auto.
Qed.
(** "A socket that is not connected ignores segments": a bound socket is destroyed by a RST
    with sequence number 0 from anyone. *)
Definition h_bound : list (Z * ev) := [(1, ESocket); (1, EBind 0 0 10 80 false)].
Theorem bound_socket_survives_refuted :
  reach 64 4 (hist h_bound) /\ k_live (slot h_bound 0) = true /\ k_lport (slot h_bound 0) = 80 /\ k_st (slot h_bound 0) = CLOSED
  /\ k_live (slot (h_bound ++ [(7, sg 0 0 false false true false [])]) 0) = false /\ ok_hist (h_bound ++ [(7, sg 0 0 false false true false [])]) = true.
Proof. split; [apply hist_reach; vm_compute; reflexivity|]. vm_compute. auto. Qed.
(** "The last acknowledgement of a connection is not answered": it draws a reset when the
    connection's slot precedes its listener's. *)
Definition h_low : list (Z * ev) := [(1, ESocket); (1, ESocket); (1, EBind 1 0 10 80 false); (1, EListen 1 false); (1, EClose 0 true); (1000, sg 500 0 false true false false []);
  (7, EAccept 1 true false); (7, sg 501 1001 false false false true []); (7, sg 501 1001 true false false true []); (7, EClose 0 true)].
Theorem final_ack_unanswered_refuted :
  reach 64 4 (hist h_low) /\ k_st (slot h_low 0) = LAST_ACK /\ k_last (slot h_low 0) = 1001 /\ k_ack (slot h_low 0) = 502
  /\ outs (h_low ++ [(7, sg 502 1002 false false false true [])]) = outs h_low ++ [ORst 1002 None].
Proof. split; [apply hist_reach; vm_compute; reflexivity|]. vm_compute. auto. Qed.
(** "A FIN is retransmitted until acknowledged": closing a listener whose connection was
    completed before accept() leaves FIN_WAIT_1 without a timer after the first expiry... *)
Definition h_preclose := h_syn ++ [(7, sg 501 1001 false false false true []); (7, EClose 0 true); (7, ETimer 0 false false false true)].
Theorem fin_retransmitted_refuted : reach 64 4 (hist h_preclose) /\ k_st (slot h_preclose 0) = FIN_WAIT_1 /\ k_tmr (slot h_preclose 0) = false /\ k_retr (slot h_preclose 0) = 0.
Proof. split; [apply hist_reach; vm_compute; reflexivity|]. vm_compute. auto. Qed.
(** ... and in LAST_ACK the timer is lost when an acknowledgement of earlier data arrives. *)
Definition h_la_data := h_est ++ [(7, ESend 1 5); (7, sg 501 1001 true false false true []); (7, EClose 1 true); (7, sg 502 1006 false false false true [])].
Theorem last_ack_timer_refuted : reach 64 4 (hist h_la_data) /\ k_st (slot h_la_data 1) = LAST_ACK /\ k_tmr (slot h_la_data 1) = false /\ k_last (slot h_la_data 1) = 1006
  /\ k_una (slot h_la_data 1) = 1006.
Proof. split; [apply hist_reach; vm_compute; reflexivity|]. vm_compute. auto. Qed.
(** "Calling close() again until it succeeds is harmless": in LAST_ACK it releases the socket
    although the FIN has not been acknowledged. *)
Theorem close_again_waits_refuted : reach 64 4 (hist h_la) /\ k_st (slot h_la 1) = LAST_ACK /\ snd (sock_close true (slot h_la 1)) = 0
  /\ k_live (slot (h_la ++ [(7, EClose 1 true)]) 1) = false.
Proof. split; [apply hist_reach; vm_compute; reflexivity|]. vm_compute. auto. Qed.
(** "No two connections have the same 4-tuple": two connect() calls that draw the same
    random port do. *)
Definition h_dup : list (Z * ev) := [(9, ESocket); (9, ESocket); (2000, EConnect 0 false false true 10 20 80 3000); (3000, EConnect 1 false false true 10 20 80 3000)].
Theorem unique_four_tuple_refuted : reach 64 4 (hist h_dup) /\ k_st (slot h_dup 0) = SYN_SENT /\ k_st (slot h_dup 1) = SYN_SENT
  /\ (k_lport (slot h_dup 0), k_rport (slot h_dup 0), k_lip (slot h_dup 0), k_rip (slot h_dup 0)) = (k_lport (slot h_dup 1), k_rport (slot h_dup 1), k_lip (slot h_dup 1), k_rip (slot h_dup 1)).
Proof. split; [apply hist_reach; vm_compute; reflexivity|]. vm_compute. auto. Qed.
(** "TS.Recent follows the newest in-order timestamp" (RFC 7323 4.3): the update test compares
    byte-swapped values, so 256 after 127 is not recorded. *)
Definition ts_seg (seq ackn ts : Z) (syn ack : bool) : ev := ESeg (mkTseg 20 10 5000 80 seq ackn false syn false ack false 4096 [] (Some ts) None).
Definition h_ts := h_listen ++ [(1000, ts_seg 500 0 127 true false); (7, EAccept 0 true false); (7, ts_seg 501 1001 127 false true)].
Theorem ts_recent_monotone_refuted : reach 64 4 (hist h_ts) /\ k_ts (slot h_ts 1) = true /\ ts_recent (slot h_ts 1) = 127
  /\ ok_hist (h_ts ++ [(7, ts_seg 501 1001 256 false true)]) = true /\ ts_recent (slot (h_ts ++ [(7, ts_seg 501 1001 256 false true)]) 1) = 127.
Proof. split; [apply hist_reach; vm_compute; reflexivity|]. vm_compute. auto. Qed.

Print Assumptions tcp_table_total.
Print Assumptions tcp_segment_transitions.
Print Assumptions tcp_other_transitions.
Print Assumptions tcp_segment_isolation.
Print Assumptions tcp_unacceptable_ignored.
Print Assumptions tcp_time_wait_exits.
Print Assumptions tcp_reset_replies.
Print Assumptions tcp_unmatched_segment_reset.
Print Assumptions tcp_syn_opens.
Print Assumptions tcp_final_ack_establishes.
Print Assumptions tcp_synack_establishes.
Print Assumptions tcp_close_handshake.
Print Assumptions tcp_reset_closes.
Print Assumptions tcp_half_open_timer.
Print Assumptions tcp_half_open_bounded.
Print Assumptions close_wait_never_listens.
Print Assumptions passive_open_unique_partial.
