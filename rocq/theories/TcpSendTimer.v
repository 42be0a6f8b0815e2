(** TCP sender: the retransmission timer, RTT samples, zero-window probes (C45, C46). *)
From Verif Require Import Base ListUtil Seq SeqProps Rto TcpRecv TcpSack TcpRecvProofs TcpSend TcpSendProofs TcpSendProps.

(** Whenever transmitted, unacknowledged data is queued after a flush in ESTABLISHED, the
    retransmission timer is running. *)
Definition tmr_ok (t : tcb) : Prop := t_st t = CEst -> t_ctrl t = false /\ t_tmr t <> TStale.
Lemma flush_timer : forall f t c oks t' o, flush_loop f t c oks = (t', o) ->
  (t_tmr t' = t_tmr t /\ Forall (fun x => x_pay x = []) o) \/ (exists d, t_tmr t' = TArmed d).
Proof.
  induction f as [|f IH]; intros t c oks t' o E; cbn [flush_loop] in E; [assert (t' = t /\ o = []) as [-> ->] by (split; congruence); left; split; [reflexivity|constructor]|].
  destruct (cur_seg (t_q t) c) as [s|]; [|assert (t' = t /\ o = []) as [-> ->] by (split; congruence); left; split; [reflexivity|constructor]].
  destruct (s_sent s); [eapply IH; exact E|]. destruct oks as [|[|] oks']; try (assert (t' = t /\ o = []) as [-> ->] by (split; congruence); left; split; [reflexivity|constructor]). cbn zeta in E.
  set (t1 := match c with At i => _ | Popped _ => t end) in *. assert (N1 : t_tmr t1 = t_tmr t) by (unfold t1; destruct c; reflexivity).
  destruct (s_retr s || (slen s =? 0) || _).
  - destruct (Z.eqb_spec (slen s) 0) as [Z0|Z0].
    + destruct (t_q t1) as [|h r]; [assert (t' = t1 /\ o = [mkTx (s_seq s) (s_pay s) (s_retr s)]) as [-> ->] by (split; congruence); left; split; [exact N1|constructor; [apply slen_zero; exact Z0|constructor]]|].
      destruct (flush_loop f (upd_q t1 r) (Popped h) oks') as [t2 o2] eqn:EF. assert (t' = t2 /\ o = mkTx (s_seq s) (s_pay s) (s_retr s) :: o2) as [-> ->] by (split; congruence).
      destruct (IH _ _ _ _ _ EF) as [[A B]|A]; [left; split; [rewrite A; exact N1|constructor; [apply slen_zero; exact Z0|exact B]]|right; exact A].
    + match type of E with (let '(_, _) := flush_loop f ?u ?c ?k in _) = _ => set (t3 := u) in *; destruct (flush_loop f t3 c k) as [t4 o2] eqn:EF end. assert (t' = t4) by congruence. subst t4. right.
      destruct (IH _ _ _ _ _ EF) as [[A _]|A]; [|exact A]. rewrite A. unfold t3. destruct (s_retr s); eexists; reflexivity.
  - destruct (find_retr _ _); [eapply IH; exact E|]. assert (t' = t /\ o = []) as [-> ->] by (split; congruence). left. split; [reflexivity|constructor].
Qed.
Lemma flush_sent_src : forall f t c oks t' o, flush_loop f t c oks = (t', o) -> Forall (fun x => x_pay x = []) o -> sent_bytes (t_q t') <= sent_bytes (t_q t).
Proof.
  induction f as [|f IH]; intros t c oks t' o E HO; cbn [flush_loop] in E; [assert (t' = t) by congruence; subst; lia|].
  destruct (cur_seg (t_q t) c) as [s|] eqn:EC; [|assert (t' = t) by congruence; subst; lia].
  destruct (s_sent s) eqn:ES; [eapply IH; eassumption|]. destruct oks as [|[|] oks']; try (assert (t' = t) by congruence; subst; lia). cbn zeta in E.
  set (t1 := match c with At i => _ | Popped _ => t end) in *.
  assert (N1 : slen s = 0 -> sent_bytes (t_q t1) <= sent_bytes (t_q t)).
  { intros Z0. unfold t1. destruct c as [i|h]; [|lia]. cbn [upd_q t_q]. cbn in EC. destruct (set_nth_split i (sent_seg (t_now t) s) s _ EC) as [X1 X2]. rewrite X1. rewrite X2 at 3. rewrite !sent_bytes_app, !sent_bytes_cons. change (slen (sent_seg (t_now t) s)) with (slen s). rewrite Z0. destruct (s_sent s), (s_sent (sent_seg (t_now t) s)); lia. }
  destruct (s_retr s || (slen s =? 0) || _).
  - destruct (Z.eqb_spec (slen s) 0) as [Z0|Z0].
    + specialize (N1 Z0). destruct (t_q t1) as [|h r] eqn:Q1; [assert (t' = t1) by congruence; subst t'; rewrite Q1; exact N1|].
      destruct (flush_loop f (upd_q t1 r) (Popped h) oks') as [t2 o2] eqn:EF. assert (t' = t2 /\ o = mkTx (s_seq s) (s_pay s) (s_retr s) :: o2) as [-> ->] by (split; congruence).
      specialize (IH _ _ _ _ _ EF (Forall_inv_tail HO)). cbn [upd_q t_q] in IH. rewrite sent_bytes_cons in N1. unfold slen in N1. pose proof (zlen_nonneg (s_pay h)). destruct (s_sent h); lia.
    + exfalso. match type of E with (let '(_, _) := flush_loop f ?u ?c ?k in _) = _ => destruct (flush_loop f u c k) as [t4 o2] end. assert (o = mkTx (s_seq s) (s_pay s) (s_retr s) :: o2) by congruence. subst o. apply Forall_inv in HO. cbn in HO. apply Z0, slen_zero, HO.
  - destruct (find_retr _ _); [eapply IH; eassumption|]. assert (t' = t) by congruence. subst. lia.
Qed.
Lemma flush_frame : forall f u c oks t' o, flush_loop f u c oks = (t', o) -> frame t' = frame u.
Proof.
  induction f as [|f IH]; intros u c oks t' o E; cbn [flush_loop] in E; [assert (t' = u) by congruence; subst; reflexivity|].
  destruct (cur_seg (t_q u) c) as [s|]; [|assert (t' = u) by congruence; subst; reflexivity]. destruct (s_sent s); [eapply IH; exact E|]. destruct oks as [|[|] oks']; try (assert (t' = u) by congruence; subst; reflexivity). cbn zeta in E.
  set (t1 := match c with At i => _ | Popped _ => u end) in *. assert (N1 : frame t1 = frame u) by (unfold t1; destruct c; reflexivity). destruct (s_retr s || (slen s =? 0) || _).
  - destruct (slen s =? 0).
    + destruct (t_q t1) as [|h r]; [assert (t' = t1) by congruence; subst t'; exact N1|]. destruct (flush_loop f (upd_q t1 r) (Popped h) oks') as [t2 o2] eqn:EF. assert (t' = t2) by congruence. subst t2. rewrite (IH _ _ _ _ _ EF). exact N1.
    + match type of E with (let '(_, _) := flush_loop f ?u ?c ?k in _) = _ => set (t3 := u) in *; destruct (flush_loop f t3 c k) as [t4 o2] eqn:EF end. assert (t' = t4) by congruence. subst t4. rewrite (IH _ _ _ _ _ EF). unfold t3. destruct (s_retr s); exact N1.
  - destruct (find_retr _ _); [eapply IH; exact E|]. assert (t' = u) by congruence. subst. reflexivity.
Qed.
Lemma MU : forall t ack, t_tmr (fst (mark_unsacked t ack)) = t_tmr t. Proof. intros; apply mark_unsacked_frame. Qed.
(** The part of ack_advance after the timer decision. *)
Definition ack_post (t : tcb) (ack delta : Z) : tcb * bool :=
  let smss := t_mss t in
  if t_fr t then
    if tcp_seq_lt ack (t_rp t) then
      let t := upd_dup t 3 (t_erd t) (t_lera t) in
      let cw := u32 ((if t_cwnd t <=? delta then smss else t_cwnd t - delta) + smss) in
      let cw := if cw <? u32 (t_ssth t + smss) then u32 (t_ssth t + smss) else cw in
      let t := upd_cw t cw (t_ssth t) 0 in
      (fst (mark_unsacked t ack), true)
    else (upd_cw (upd_dup (upd_fr t false ack) 0 (t_erd t) (t_lera t)) (t_ssth t) (t_ssth t) 0, true)
  else (t, false).
Lemma ack_post_tmr t ack d : t_tmr (fst (ack_post t ack d)) = t_tmr t.
Proof. unfold ack_post. destruct (t_fr t); [|reflexivity]. destruct (tcp_seq_lt ack (t_rp t)); [|reflexivity]. cbv zeta. cbn [fst]. rewrite MU. reflexivity. Qed.
Lemma AD : forall t ack, t_tmr t <> TStale -> t_tmr (fst (ack_advance t ack)) <> TStale.
Proof.
  intros t ack H.
  assert (X : exists u delta, t_tmr u = t_tmr t /\ ack_advance t ack = ack_post (upd_tm u 0 (t_rto u) (if t_special u then t_tmr u else if 0 <? t_infl u then arm u (r_rto (t_rto u)) else TNone)) ack delta).
  { exists (upd_dup (upd_una (upd_infl t (if t_infl t <=? u32 (ack - t_una t) then 0 else t_infl t - u32 (ack - t_una t))) ack) 0 false ack), (u32 (ack - t_una t)). split; reflexivity. }
  destruct X as (u & delta & U & ->). rewrite ack_post_tmr. cbn [t_tmr upd_tm]. rewrite U. destruct (t_special u); [exact H|]. destruct (0 <? t_infl u); discriminate.
Qed.
Lemma DU : forall t a i b, t_tmr (dup_ack t a i b) = t_tmr t.
Proof.
 intros t a i b. unfold dup_ack. destruct (_ || _ || _ || b); [reflexivity|]. cbn zeta. set (t1 := upd_dup t _ _ _). set (early := match rev _ with [] => _ | _ => _ end).
    assert (X : exists t2 dn, (if early then let '(t', ok) := mark_unsacked t1 (a_ack a) in if ok then (upd_dup t' (t_dup t') true (a_ack a), true) else (t', false) else (t1, false)) = (t2, dn) /\ t_tmr t2 = t_tmr t).
    { destruct early; [|exists t1, false; split; reflexivity]. pose proof (MU t1 (a_ack a)) as M. destruct (mark_unsacked t1 (a_ack a)) as [t' ok]. cbn [fst] in M. destruct ok; eexists; eexists; (split; [reflexivity|exact M]). }
    destruct X as (t2 & dn & -> & X). destruct dn; [exact X|]. destruct (t_dup t2 <? 3); [exact X|]. destruct (t_dup t2 =? 3); [rewrite MU; exact X|exact X]. 
Qed.
Lemma tmr_send t t' os data cap rooms : tmr_ok t -> step t (ASend data cap rooms) = Some (t', os) -> tmr_ok t'.
Proof.
  intros IH E. unfold tmr_ok in *. cbn [step] in E.
  destruct (tcp_sock_send t data cap rooms) as [t1 n] eqn:ES. assert (t' = t1) by congruence. subst t1. assert (X : t_st t' = t_st t /\ t_ctrl t' = t_ctrl t /\ t_tmr t' = t_tmr t).
      { unfold tcp_sock_send in ES. destruct data; [assert (t' = t) by congruence; subst; auto|]. destruct (t_st t) eqn:ST; try (assert (t' = t) by congruence; subst; auto); (destruct (send_loop _ _ _ _ _) as [[sg nx] m]; destruct (m =? 0); [assert (t' = t) by congruence; subst; auto|]; assert (t' = upd_nxt (upd_q t (t_q t ++ sg)) nx) by congruence; subst; cbn; auto). }
      destruct X as (-> & -> & ->). exact IH.
Qed.
Lemma tmr_empty t t' os room : tmr_ok t -> step t (AEmpty room) = Some (t', os) -> tmr_ok t'.
Proof.
  intros IH E. unfold tmr_ok in *. cbn [step] in E.
  assert (t' = tcp_send_empty t room) by congruence. subst t'. unfold tcp_send_empty. destruct room; exact IH.
Qed.
Lemma tmr_ack t t' os a : tmr_ok t -> step t (AAck a) = Some (t', os) -> tmr_ok t'.
Proof.
  intros IH E. unfold tmr_ok in *. cbn [step] in E.
  destruct (tcp_ack t a) as [t1 r] eqn:EA. assert (t' = t1) by congruence. subst t1. unfold tcp_ack in EA. cbn zeta in EA. set (t1 := process_sack (upd_lastwin t (a_win a)) (a_sack a)) in *.
      assert (T1 : t_st t1 = t_st t /\ t_ctrl t1 = t_ctrl t /\ t_tmr t1 = t_tmr t) by (unfold t1, process_sack; match goal with |- context [if ?c then _ else _] => destruct c end; repeat split).
      destruct (ack_scan _ _ _ _) as [q1 n]. set (t2 := upd_q t1 q1) in *. assert (T2 : t_st t2 = t_st t /\ t_ctrl t2 = t_ctrl t /\ t_tmr t2 = t_tmr t) by exact T1. clearbody t2.
      set (adv := negb _ && _ && _) in *.
      assert (X : exists t3 bl, (if adv then ack_advance t2 (a_ack a) else (t2, false)) = (t3, bl) /\ t_st t3 = t_st t /\ t_ctrl t3 = t_ctrl t /\ (t_tmr t <> TStale -> t_tmr t3 <> TStale)).
      { destruct T2 as (X1 & X2 & X3). destruct adv; [|exists t2, false; rewrite X3; auto]. pose proof (ack_advance_frame t2 (a_ack a)) as (_ & B & _). pose proof (AD t2 (a_ack a)) as C. destruct (ack_advance t2 (a_ack a)) as [t3 bl]. cbn [fst] in *. exists t3, bl. split; [reflexivity|]. unfold frame in B. rewrite X3 in C. split; [congruence|]. split; [congruence|exact C]. }
      destruct X as (t3 & bl & X & X1 & X2 & X3). rewrite X in EA. clear X.
      assert (FIN : t_st t' = t_st t3 /\ t_ctrl t' = t_ctrl t3 /\ t_tmr t' = t_tmr t3).
      { destruct (0 <? n).
        - destruct (pop_acked (t_q t3) None) as [q2 fresh0]. destruct fresh0 as [s|]; [|assert (t' = upd_q t3 q2) by congruence; subst t'; repeat split].
          set (t4 := upd_q t3 q2) in *. set (sample := if s_was s then None else _) in *. set (t5 := match sample with Some _ => _ | None => t4 end) in *.
          assert (t' = cwnd_grow t5 (t_infl t) bl adv) by congruence. subst t'. destruct (cwnd_grow_frame t5 (t_infl t) bl adv) as (_ & G2 & _). unfold frame in G2.
          assert (t_tmr (cwnd_grow t5 (t_infl t) bl adv) = t_tmr t5) by (unfold cwnd_grow; repeat (match goal with |- context [if ?c then _ else _] => destruct c end); reflexivity).
          assert (t_st t5 = t_st t3 /\ t_ctrl t5 = t_ctrl t3 /\ t_tmr t5 = t_tmr t3) as (Y1 & Y2 & Y3) by (unfold t5; destruct sample; repeat split). split; [congruence|]. split; congruence.
        - assert (t' = dup_ack t3 a (t_infl t) (negb (a_win a =? t_lastwin t))) by congruence. subst t'. destruct (dup_ack_frame t3 a (t_infl t) (negb (a_win a =? t_lastwin t))) as (_ & G2 & _). unfold frame in G2. split; [congruence|]. split; [congruence|apply DU]. }
      destruct FIN as (Y1 & Y2 & Y3). rewrite Y1, Y2, Y3, X1, X2. intros S0. destruct (IH S0) as [I1 I2]. split; [exact I1|apply X3; exact I2].
Qed.
Lemma tmr_win t t' os w0 : tmr_ok t -> step t (AWin w0) = Some (t', os) -> tmr_ok t'.
Proof.
  intros IH E. unfold tmr_ok in *. cbn [step] in E.
  assert (t' = upd_rwnd t w0) by congruence. subst t'. exact IH.
Qed.
Lemma tmr_rto t t' os room giveup : tmr_ok t -> step t (ARto room giveup) = Some (t', os) -> tmr_ok t'.
Proof.
  intros IH E. unfold tmr_ok in *. cbn [step] in E.
  destruct (tcp_rto_cb t room giveup) as [t1|] eqn:ER; [|discriminate]. assert (t' = t1) by congruence. subst t1. unfold tcp_rto_cb in ER. cbn zeta in ER.
      set (t0 := upd_tm t (t_backoff t) (t_rto t) TStale) in *. change (t_st t0) with (t_st t) in ER. change (t_ctrl t0) with (t_ctrl t) in ER. unfold ctrl_needs in ER. change (t_st t0) with (t_st t) in ER.
      destruct (t_st t) eqn:ST.
      * destruct (IH eq_refl) as [C T]. rewrite C in ER. cbn [orb] in ER. destruct (rto_scan _ _ _ _) as [[cov x] first]. destruct (match cov with Some i => Some i | None => _ end) as [i|].
        -- destruct (RTO_MAX_BACKOFF <=? _); [discriminate|]. apply some_inj in ER. subst t'. intros _. split; [exact C|discriminate].
        -- apply some_inj in ER. subst t'. intros _. split; [exact C|discriminate].
      * intros S0. exfalso. cbn [orb] in ER. destruct (t_ctrl t); apply some_inj in ER; subst t'; cbn in S0; try rewrite ST in S0; discriminate.
      * intros S0. exfalso. destruct (_ || t_ctrl t).
        -- destruct (negb _); [apply some_inj in ER; subst t'; cbn in S0; try rewrite ST in S0; discriminate|]. destruct giveup; [discriminate|]. apply some_inj in ER. subst t'. unfold tcp_send_empty in S0. destruct room; cbn in S0; try rewrite ST in S0; discriminate.
        -- destruct (rto_scan _ _ _ _) as [[cov x] first]. destruct (match cov with Some i => Some i | None => _ end) as [i|].
           ++ destruct (RTO_MAX_BACKOFF <=? _); [discriminate|]. apply some_inj in ER. subst t'. cbn in S0. try rewrite ST in S0. discriminate.
           ++ apply some_inj in ER. subst t'. cbn in S0. try rewrite ST in S0. discriminate.
      * intros S0. exfalso. cbn [orb negb] in ER. destruct giveup; [discriminate|]. apply some_inj in ER. subst t'. unfold tcp_send_empty in S0. destruct room; cbn in S0; try rewrite ST in S0; discriminate.
Qed.
Lemma tmr_flush t t' os oks : tmr_ok t -> step t (AFlush oks) = Some (t', os) -> tmr_ok t'.
Proof.
  intros IH E. unfold tmr_ok in *. cbn [step] in E.
  destruct (flush_tcp_tx t oks) as [t1 o] eqn:EF. assert (t' = t1) by congruence. subst t1. unfold flush_tcp_tx in EF. destruct (resync_frame t) as (_ & R2 & _).
      pose proof (flush_frame _ _ _ _ _ _ EF) as FR.
      assert (X : t_st t' = t_st t /\ t_ctrl t' = t_ctrl t) by (unfold frame in *; split; congruence). destruct X as [-> ->]. intros S0. destruct (IH S0) as [C T]. split; [exact C|].
      assert (RT : t_tmr (resync t) <> TStale).
      { unfold resync. destruct (ctrl_needs t || t_ctrl t); [exact T|]. cbn zeta. destruct (t_special _); [exact T|]. change (t_tmr (upd_infl t (sent_bytes (t_q t)))) with (t_tmr t). destruct (t_tmr t) eqn:TT; destruct (0 <? _); cbn; try rewrite TT; try discriminate; congruence. }
      destruct (flush_timer _ _ _ _ _ _ EF) as [[A _]|(d & A)]; rewrite A; [exact RT|discriminate].
Qed.
Lemma tmr_probe t t' os  : tmr_ok t -> step t (AProbe) = Some (t', os) -> tmr_ok t'.
Proof.
  intros IH E. unfold tmr_ok in *. cbn [step] in E.
  assert (t' = t) by congruence. subst t'. exact IH.
Qed.
Lemma tmr_close t t' os room : tmr_ok t -> step t (AClose room) = Some (t', os) -> tmr_ok t'.
Proof.
  intros IH E. unfold tmr_ok in *. cbn [step] in E.
  assert (t' = tcp_sock_close t room) by congruence. subst t'. unfold tcp_sock_close. destruct (t_st t) eqn:ST; try (rewrite ST; exact IH); destruct room; try (rewrite ST; exact IH); intros X; cbn in X; discriminate.
Qed.
Lemma tmr_pfin t t' os  : tmr_ok t -> step t (APeerFin) = Some (t', os) -> tmr_ok t'.
Proof.
  intros IH E. unfold tmr_ok in *. cbn [step] in E.
  destruct (t_st t) eqn:ST; [assert (t' = upd_st t CCloseWait (t_ctrl t)) by congruence; subst t'; cbn; discriminate| | |]; (assert (t' = t) by congruence; subst t'; rewrite ST; exact IH).
Qed.
Lemma tmr_tick t t' os now : tmr_ok t -> step t (ATick now) = Some (t', os) -> tmr_ok t'.
Proof.
  intros IH E. unfold tmr_ok in *. cbn [step] in E.
  assert (t' = upd_now t now) by congruence. subst t'. exact IH.
Qed.
Lemma reach_tmr iss : forall t w, reach iss t w -> tmr_ok t.
Proof.
  induction 1 as [t F|t w a t' os H IH OK E].
  - destruct F as (_ & _ & _ & _ & S0 & C & T). intros _. split; [exact C|congruence].
  - destruct a; [eapply tmr_send|eapply tmr_empty|eapply tmr_ack|eapply tmr_win|eapply tmr_rto|eapply tmr_flush|eapply tmr_probe|eapply tmr_close|eapply tmr_pfin|eapply tmr_tick]; eassumption.
Qed.
Theorem tcp_timer_runs_while_data_outstanding : forall iss t w oks t' os,
  is_u32 iss -> reach iss t w -> t_st t = CEst -> t_special t = false -> step t (AFlush oks) = Some (t', os) ->
  (exists s, In s (t_q t') /\ s_sent s = true /\ s_pay s <> []) -> exists deadline, t_tmr t' = TArmed deadline.
Proof.
  intros iss t w oks t' os HU HR ST SP E (s & IS & SS & NP). destruct (reach_tmr _ _ _ HR ST) as [C T]. cbn [step] in E. destruct (flush_tcp_tx t oks) as [t1 o] eqn:EF. assert (t' = t1) by congruence. subst t1. unfold flush_tcp_tx in EF.
  destruct (flush_timer _ _ _ _ _ _ EF) as [[A B]|A]; [|exact A]. pose proof (flush_sent_src _ _ _ _ _ _ EF B) as SB. destruct (resync_frame t) as (R1 & _). rewrite R1 in SB.
  assert (POS : 0 < sent_bytes (t_q t')).
  { apply in_split in IS. destruct IS as (a & b & ->). rewrite sent_bytes_app, sent_bytes_cons, SS. pose proof (sent_bytes_nonneg a). pose proof (sent_bytes_nonneg b). assert (0 < slen s) by (unfold slen; destruct (s_pay s); [congruence|]; rewrite zlen_cons; pose proof (zlen_nonneg l); lia). lia. }
  rewrite A. unfold resync, ctrl_needs. rewrite ST, C. cbn [orb]. cbn zeta. change (t_special (upd_infl t (sent_bytes (t_q t)))) with (t_special t). rewrite SP. change (t_tmr (upd_infl t (sent_bytes (t_q t)))) with (t_tmr t).
  assert (L : 0 <? sent_bytes (t_q t) = true) by lia. rewrite L. destruct (t_tmr t) eqn:TT; [eexists; reflexivity|exists deadline; exact TT|congruence].
Qed.
Print Assumptions tcp_timer_runs_while_data_outstanding.

Lemma sq_minus iss x : sq iss (x - 4294967296) = sq iss x.
Proof. unfold sq, u32. replace (iss + (x - 4294967296)) with (iss + x + (-1) * 4294967296) by lia. apply Z.mod_add. lia. Qed.
(** In CLOSE_WAIT the timeout does nothing (wolfip.c:5954 tests only ESTABLISHED and
    FIN_WAIT_1): data sent by an application whose peer has closed its own direction is
    never retransmitted, and the timer is never armed again by flushing. *)
Definition run5 : list act := [APeerFin; ASend (data (Z.to_nat 100) 7) 1000 [5000]; AFlush [true]; ARto true false].
Lemma stale_flush : forall f t i oks, Forall (fun s => s_sent s = true) (t_q t) -> (i <= length (t_q t))%nat -> flush_loop f t (At i) oks = (t, []).
Proof.
  induction f as [|f IH]; intros t i oks F L; [reflexivity|]. cbn [flush_loop cur_seg]. destruct (nth_error (t_q t) i) as [s|] eqn:E; [|reflexivity].
  rewrite Forall_forall in F. rewrite (F s (nth_error_In _ _ E)). apply IH; [apply Forall_forall; exact F|]. assert (i < length (t_q t))%nat by (apply nth_error_Some; congruence). lia.
Qed.
Theorem tcp_timeout_retransmits_close_wait_refuted : exists iss t w, is_u32 iss /\ reach iss t w /\ t_st t = CCloseWait /\ t_una t = iss /\ zlen w = 100 /\
  (exists s, In s (t_q t) /\ zlen (s_pay s) = 100) /\ (forall d, t_tmr t <> TArmed d) /\
  (forall oks, let '(t', o) := flush_tcp_tx t oks in o = [] /\ t_q t' = t_q t /\ t_tmr t' = t_tmr t).
Proof.
  exists 1000, (fst (fst (getx (exec (mk0 4000 4000) [] run5)))), (snd (fst (getx (exec (mk0 4000 4000) [] run5)))).
  split; [unfold is_u32; lia|]. split; [apply getx_reach; [vm_compute; reflexivity|repeat constructor; cbn; unfold is_u32; lia]|].
  set (t := fst (fst (getx (exec (mk0 4000 4000) [] run5)))). split; [vm_compute; reflexivity|]. split; [vm_compute; reflexivity|]. split; [vm_compute; reflexivity|].
  split; [exists (hd (new_seg 0 []) (t_q t)); split; [left; vm_compute; reflexivity|vm_compute; reflexivity]|].
  assert (TT : t_tmr t = TStale) by (vm_compute; reflexivity). split; [intros d; rewrite TT; discriminate|]. intros oks.
  assert (RQ : t_q (resync t) = t_q t /\ t_tmr (resync t) = t_tmr t) by (split; vm_compute; reflexivity). destruct RQ as [RQ RT].
  unfold flush_tcp_tx. rewrite stale_flush; [split; [reflexivity|split; [exact RQ|exact RT]]| |lia]. rewrite RQ. vm_compute. repeat constructor.
Qed.
Print Assumptions tcp_timeout_retransmits_close_wait_refuted.

(** Closing with data in flight: the FIN is queued behind it and sent; when the ACK of the
    data arrives (the FIN itself being lost) the timer is cancelled because no byte is in
    flight, and flushing never arms it again although the connection is in FIN_WAIT_1 with
    its FIN unacknowledged.  The FIN is never retransmitted. *)
Definition run6 : list act := [ASend (data (Z.to_nat 100) 7) 1000 [5000]; AFlush [true]; AClose true; AFlush [true]; AAck (mkAck 1100 4000 0 [] None)].
Theorem tcp_fin_retransmitted_refuted : exists iss t w, is_u32 iss /\ reach iss t w /\ t_st t = CFinWait1 /\ t_una t = (iss + zlen w) mod 4294967296 /\ t_tmr t = TNone /\
  (forall oks, let '(t', o) := flush_tcp_tx t oks in o = [] /\ t_tmr t' = TNone /\ t_q t' = t_q t).
Proof.
  exists 1000, (fst (fst (getx (exec (mk0 4000 4000) [] run6)))), (snd (fst (getx (exec (mk0 4000 4000) [] run6)))).
  split; [unfold is_u32; lia|]. split; [apply getx_reach; [vm_compute; reflexivity|repeat constructor; cbn; unfold is_u32; lia]|].
  set (t := fst (fst (getx (exec (mk0 4000 4000) [] run6)))). split; [vm_compute; reflexivity|]. split; [vm_compute; reflexivity|]. split; [vm_compute; reflexivity|].
  intros oks. assert (RQ : t_q (resync t) = t_q t /\ t_tmr (resync t) = TNone) by (split; vm_compute; reflexivity). destruct RQ as [RQ RT].
  unfold flush_tcp_tx. rewrite stale_flush; [split; [reflexivity|split; [exact RT|exact RQ]]| |lia]. rewrite RQ. vm_compute. repeat constructor.
Qed.
Print Assumptions tcp_fin_retransmitted_refuted.

(** ** C46: RTT samples (Karn's rule) *)
(** A sample taken without timestamp echo is the age of a segment that was transmitted
    exactly once and that this ACK acknowledges. *)
Theorem tcp_rtt_sample_from_single_transmission : forall iss t w k t' os r,
  is_u32 iss -> reach iss t w -> step t (AAck k) = Some (t', os) -> In (OSample r) os -> a_ts k = None ->
  exists s sent_at, In s (t_q t) /\ s_txs s = [sent_at] /\ sent_at <= t_now t /\ r = (t_now t - sent_at) mod 4294967296 /\
    tcp_seq_leq ((s_seq s + zlen (s_pay s)) mod 4294967296) (a_ack k) = true.
Proof.
  intros iss t w k t' os r HU HR E IS TS. pose proof (reach_inv _ _ _ HU HR) as (_ & _ & _ & K & _). cbn [step] in E. destruct (tcp_ack t k) as [t1 x] eqn:EA.
  assert (t' = t1 /\ os = match x with Some r => [OSample r] | None => [] end) as [-> ->] by (split; congruence).
  destruct (tcp_ack_spec _ _ _ _ EA K) as (rm & rest & Q1 & Q2 & Q3 & Q4 & Q5 & Q6 & Q7).
  destruct x as [x|]; [|destruct IS]. destruct IS as [IS|[]]. assert (x = r) by congruence. subst x. destruct (Q7 r eq_refl) as (s & I1 & (C1 & C2 & C3) & WA & [X|(_ & X1 & X2)]); [congruence|].
  assert (SO : segok s) by (rewrite Forall_forall in K; apply K; rewrite Q1; apply in_or_app; left; exact I1). destruct SO as [_ SO]. specialize (SO WA). rewrite C1 in SO. cbn [orb] in SO.
  exists s, (s_time s). split; [rewrite Q1; apply in_or_app; left; exact I1|]. split; [exact SO|]. split; [exact X1|]. split; [exact X2|exact C3].
Qed.
Print Assumptions tcp_rtt_sample_from_single_transmission.
(** Non-vacuity: a sample of 300 ms. *)
Definition run7 : list act := [ASend (data (Z.to_nat 100) 7) 1000 [5000]; AFlush [true]; ATick 5300].
Example rtt_sample_case : exists t w t', reach 1000 t w /\ step t (AAck (mkAck 1100 4000 0 [] None)) = Some (t', [OSample 300]).
Proof.
  set (t := fst (fst (getx (exec (mk0 4000 4000) [] run7)))). exists t, (snd (fst (getx (exec (mk0 4000 4000) [] run7)))), (fst (tcp_ack t (mkAck 1100 4000 0 [] None))).
  split; [apply getx_reach; [vm_compute; reflexivity|repeat constructor; cbn; unfold is_u32; lia]|]. vm_compute. reflexivity.
Qed.

(** ** Zero-window probes *)
(** In every execution: if the peer's window is closed and unsent data is queued, a probe can
    be built, and it carries the byte at its sequence number (by
    tcp_sender_stream_integrity); the byte read from the queue is never out of bounds. *)
Theorem tcp_zero_window_probe_possible : forall iss t w, is_u32 iss -> reach iss t w -> (t_st t = CEst \/ t_st t = CCloseWait) -> t_rwnd t = 0 ->
  (exists s, In s (t_q t) /\ s_pay s <> [] /\ s_sent s = false) -> exists seq b, step t AProbe = Some (t, [OProbe seq b]).
Proof.
  intros iss t w HU HR HS RW (s & I1 & P1 & S1). pose proof (reach_inv _ _ _ HU HR) as (Q & _ & U & _ & SM). cbn [step]. unfold persist_probe.
  assert (HU2 : has_unsent (t_q t) = true) by (unfold has_unsent; apply existsb_exists; exists s; split; [exact I1|]; rewrite S1; assert (slen s =? 0 = false) as -> by (apply Z.eqb_neq; intros X; apply P1, slen_zero, X); reflexivity).
  assert (PF : exists seq b, probe_find (t_una t) (t_q t) = Some (seq, b)).
  { destruct Q as (pre & W & L). clear W HU2 HR S1. revert I1 L. generalize (zlen pre) as o. induction (t_q t) as [|x q IH]; intros o I1 L; [destruct I1|]. cbn [lay] in L. destruct L as [L1 L2]. cbn [probe_find]. destruct (Z.eqb_spec (slen x) 0) as [Z0|Z0].
    - destruct I1 as [-> |I1]; [exfalso; apply P1, slen_zero, Z0|]. eapply IH; [exact (Forall_inv_tail SM)|exact I1|exact L2].
    - pose proof (Forall_inv SM) as SX. cbn in SX. destruct (tcp_seq_leq (s_seq x) (t_una t) && tcp_seq_lt (t_una t) (tcp_seq_inc (s_seq x) (slen x))) eqn:EC.
      + apply andb_true_iff in EC. destruct EC as [E1 E2].
        assert (B : 0 <= u32 (t_una t - s_seq x) < slen x).
        { assert (LN : 0 <= slen x) by (unfold slen; apply zlen_nonneg). rewrite L1 in *. set (v := u32 (t_una t - sq iss o)). assert (V : t_una t = sq iss (o + v)).
          { unfold v, sq, u32. rewrite Zplus_mod_idemp_l || idtac. unfold sq, u32 in *. replace (iss + (o + (t_una t - (iss + o) mod 4294967296) mod 4294967296)) with (iss + o + (t_una t - (iss + o) mod 4294967296) mod 4294967296) by lia.
            rewrite Zplus_mod_idemp_r. replace (iss + o + (t_una t - (iss + o) mod 4294967296)) with (t_una t + ((iss + o) - (iss + o) mod 4294967296)) by lia.
            pose proof (Z.div_mod (iss + o) 4294967296 ltac:(lia)) as DM. replace (iss + o - (iss + o) mod 4294967296) with ((iss + o) / 4294967296 * 4294967296) by lia. rewrite Z.mod_add by lia. symmetry. apply Z.mod_small. exact U. }
          assert (V0 : 0 <= v < 4294967296) by (unfold v, u32; apply Z.mod_pos_bound; lia). split; [lia|]. rewrite sq_inc in E2 by lia. rewrite V in E1, E2.
          destruct (Z.ltb_spec v 2147483648) as [LT|GE].
          - destruct (Z.ltb_spec v (slen x)); [assumption|]. rewrite sq_ltb in E2 by lia. lia.
          - exfalso. destruct (Z.eq_dec v 2147483648) as [V1|V1].
            + clear E1. rewrite V1 in E2. rewrite sq_ltb in E2 by lia. lia.
            + rewrite <- (sq_minus iss (o + v)) in E1. rewrite sq_leqb in E1 by lia. lia. }
        destruct (nth_error (s_pay x) (Z.to_nat (u32 (t_una t - s_seq x)))) as [b|] eqn:EN; [eexists; eexists; reflexivity|]. exfalso. apply nth_error_None in EN. unfold slen, zlen in B. lia.
      + destruct (s_pay x) as [|b r] eqn:EP; [exfalso; apply Z0; unfold slen; rewrite EP; reflexivity|]. eexists; eexists; reflexivity. }
  destruct PF as (seq & b & PF). exists seq, b. rewrite RW, HU2, PF. destruct HS as [-> | ->]; reflexivity.
Qed.
Print Assumptions tcp_zero_window_probe_possible.
Example probe_case : exists t w, reach 1000 t w /\ step t AProbe = Some (t, [OProbe 2000 239]).
Proof.
  set (l := [ASend (data (Z.to_nat 1500) 7) 1000 [5000; 4000]; AFlush [true]; AWin 0; AAck (mkAck 2000 0 0 [] None)]).
  set (t := fst (fst (getx (exec (mk0 1000 4000) [] l)))). exists t, (snd (fst (getx (exec (mk0 1000 4000) [] l)))).
  split; [apply getx_reach; [vm_compute; reflexivity|repeat constructor; cbn; unfold is_u32; lia]|]. vm_compute. reflexivity.
Qed.
