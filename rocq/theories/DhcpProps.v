(** C22: the DHCP client. *)
From Verif Require Import Base HttpUrl Bits Arp DhcpOptSpec DhcpOpt DhcpOptProofs DhcpOptProps DhcpSpec Dhcp DhcpProofs DhcpMsgProofs DhcpStepProofs.

(** ** Every event is handled: no bytes and no history lead to an out-of-bounds access. *)
Theorem dhcp_client_total s e ev : reach s -> env_ok e -> ev_ok s ev ->
  exists s' o, step e s ev = Some (s', o) /\ reach s'.
Proof.
  intros HR He Hev. destruct (step_inv e s ev He (reach_inv s HR) Hev) as (s' & o & E & _).
  exists s', o. split; [exact E|]. eapply R_step; eauto.
Qed.
Print Assumptions dhcp_client_total.

(** ** The interface configuration changes only by withdrawal, or by an ACK for this client
    from the selected server, to a usable address. *)
Theorem dhcp_config_only_by_ack s e ev s' o : reach s -> env_ok e -> ev_ok s ev -> step e s ev = Some (s', o) ->
  conf s' = conf s \/ conf s' = (0, 0, 0) \/
  exists m len post, ev = EMsg m len /\ (d_st s = REQUEST_SENT \/ d_st s = RENEWING \/ d_st s = REBINDING) /\
    valid_ack s m len post /\ i_ip s' = ack_ip m post /\ i_mask s' = ack_mask s post /\
    i_gw s' = last_num 3 (i_gw s) post /\ usable (i_ip s') (i_mask s').
Proof.
  intros HR He Hev HS. destruct (step_inv e s ev He (reach_inv s HR) Hev) as (s1 & o1 & E & _ & _ & _ & _ & A).
  rewrite E in HS. injection HS as <- <-. exact A.
Qed.
Print Assumptions dhcp_config_only_by_ack.

(** ** NAK *)
Lemma type_scan_spec : forall os ty sv ty' sv', type_scan os ty sv = (ty', sv') ->
  ty' = match last_opt 53 (filter (fun o => zlen (snd o) =? 1) os) with Some d => zget d 0 | None => ty end /\
  sv' = match last_opt 54 (filter (fun o => 4 <=? zlen (snd o)) os) with Some d => Some (num d) | None => sv end.
Proof.
  induction os as [|[c d] os IH]; intros ty sv ty' sv' H; cbn [type_scan] in H.
  - injection H as <- <-. auto.
  - cbn [filter snd].
    destruct ((c =? 53) && (zlen d =? 1)) eqn:E1.
    + apply IH in H as (A1 & A2). apply andb_true_iff in E1 as (X1 & X2). rewrite X2.
      replace (4 <=? zlen d) with false by lia. cbn [last_opt]. rewrite X1. split; [|exact A2].
      rewrite A1. destruct (last_opt 53 _); reflexivity.
    + destruct ((c =? 54) && (4 <=? zlen d)) eqn:E2.
      * apply IH in H as (A1 & A2). apply andb_true_iff in E2 as (X1 & X2). rewrite X2.
        replace (zlen d =? 1) with false by lia. cbn [last_opt]. rewrite X1. split; [exact A1|].
        rewrite A2. destruct (last_opt 54 _); reflexivity.
      * apply IH in H as (A1 & A2). rewrite A1, A2. split.
        -- destruct (zlen d =? 1) eqn:EL; [|reflexivity]. cbn [last_opt]. rewrite andb_true_r in E1. rewrite E1.
           destruct (last_opt 53 _); reflexivity.
        -- destruct (4 <=? zlen d) eqn:EL; [|reflexivity]. cbn [last_opt]. rewrite andb_true_r in E2. rewrite E2.
           destruct (last_opt 54 _); reflexivity.
Qed.
Lemma last_opt_in c os d : last_opt c os = Some d -> In (c, d) os.
Proof.
  revert d. induction os as [|[a b] os IH]; intros d; cbn; [discriminate|].
  destruct (last_opt c os) as [d1|]; [intros Y; injection Y as <-; right; apply IH; reflexivity|].
  destruct (a =? c) eqn:Ea; [|discriminate]. intros Y; injection Y as <-. left. f_equal. lia.
Qed.

Lemma nak_iff s m len : zlen m = 552 -> Forall byte m -> 0 <= len <= 552 -> zget m 2 = 6 -> slice m 28 6 = d_mac s ->
  msg_type m len s = Some 6 <-> valid_nak s m len.
Proof.
  intros HM HB HL H6 Hmac. unfold msg_type. split.
  - destruct (len <? 240) eqn:E240; [discriminate|]. destruct (m_magic_ok m) eqn:Emg; cbn [negb]; [|discriminate].
    destruct (m_xid m =? d_xid s) eqn:Ex; cbn [negb]; [|discriminate]. destruct (zget m 0 =? 2) eqn:E2; cbn [negb]; [|discriminate].
    destruct (owalk m len false) as [[os fin]|] eqn:EW; cbn [obind]; [|discriminate].
    destruct (type_scan os (-1) None) as [ty sv] eqn:ET. apply type_scan_spec in ET as (T1 & T2).
    destruct (negb (d_server s =? 0) && _) eqn:ES; [discriminate|]. intros X.
    assert (HX : ty = 6) by (injection X as X; lia). clear X.
    split; [apply hdr_reply; assumption|]. exists os, fin. split; [exact EW|].
    destruct (last_opt 53 _) as [d|] eqn:ED; [|lia]. split.
    + apply last_opt_in in ED. apply filter_In in ED as (_ & ED). cbn [snd] in ED.
      destruct d as [|x [|y d]]; [cbn in ED; lia| |rewrite !zlen_cons in ED; pose proof (zlen_nonneg d); lia].
      unfold zget in T1. cbn in T1. congruence.
    + destruct (d_server s =? 0) eqn:E0; [left; lia|right]. cbn [negb andb] in ES.
      destruct (last_opt 54 _) as [d54|]; rewrite T2 in ES; [|discriminate]. exists d54. split; [reflexivity|lia].
  - intros (HR & os & fin & EW & H53 & H54). apply (reply_hdr m len) in HR as (R1 & R2 & R3 & R4 & _ & _); [|assumption].
    rewrite R1, R2, R3, R4, EW. cbn [negb obind].
    destruct (type_scan os (-1) None) as [ty sv] eqn:ET. apply type_scan_spec in ET as (T1 & T2).
    rewrite H53 in T1. unfold zget in T1. cbn in T1.
    replace (negb (d_server s =? 0) && negb match sv with Some v => v =? d_server s | None => false end) with false; [congruence|].
    destruct H54 as [->|(d & H54 & Hd)]; [reflexivity|]. rewrite H54 in T2. rewrite T2, Hd, Z.eqb_refl, andb_false_r. reflexivity.
Qed.

Definition waiting (s : dh) : Prop := d_st s = REQUEST_SENT \/ d_st s = RENEWING \/ d_st s = REBINDING.

(** A NAK for this client, in the states that wait for an answer from a server, withdraws
    the address and starts over with a DISCOVER. *)
Theorem dhcp_nak_restarts s e m len s' o : reach s -> env_ok e -> ev_ok s (EMsg m len) -> waiting s ->
  valid_nak s m len -> step e s (EMsg m len) = Some (s', o) ->
  conf s' = (0, 0, 0) /\ d_st s' = DISCOVER_SENT /\ d_server s' = 0 /\ (e_send e = true -> exists p, o = [Udp 4294967295 p]).
Proof.
  intros HR He (V1 & V2 & V3) Hw HN HS. cbn [step] in HS. pose proof (reach_inv s HR) as (HT & HL & HC & Hn).
  pose proof HN as (HR1 & _). apply (reply_hdr m len) in HR1 as (_ & _ & _ & _ & R5 & R6); [|assumption].
  apply nak_iff in HN; try assumption. unfold poll_msg in HS. rewrite R5, HN in HS. cbn [Z.eqb Pos.eqb negb orb] in HS.
  destruct (list_eq_dec Z.eq_dec (slice m 28 6) (d_mac s)) as [_|X]; [|congruence]. cbn [negb] in HS.
  assert (HS' : Some (restart e s) = Some (s', o)) by (destruct Hw as [W|[W|W]]; rewrite W in HS; exact HS). clear HS.
  destruct HC as (HC0 & HC1 & HC2).
  destruct (restart_inv e s He HT Hn ltac:(lia)) as (A1 & A2 & A3 & A4 & A5 & A6 & A7 & A8).
  assert (HO : e_send e = true -> exists p, snd (restart e s) = [Udp 4294967295 p]).
  { intros Hs. unfold restart, send_discover. rewrite Hs. cbn [snd]. eexists. reflexivity. }
  destruct (restart e s) as [s1 o1]. cbn [fst snd] in *. injection HS' as <- <-. unfold conf. auto.
Qed.
Print Assumptions dhcp_nak_restarts.

(** ** The state machine *)
Definition trans (s : dh) (ev : event) (s' : dh) : Prop :=
  d_st s' = d_st s \/
  match d_st s, d_st s' with
  | OFF, DISCOVER_SENT => ev = EInit
  | DISCOVER_SENT, REQUEST_SENT => exists m len, ev = EMsg m len /\ valid_offer s m len (d_server s') (d_ip s')
  | DISCOVER_SENT, OFF => d_count s = 3 /\ exists now, ev = EPoll now
  | REQUEST_SENT, OFF => d_count s = 3 /\ conf s' = (0, 0, 0) /\ exists now, ev = EPoll now
  | REQUEST_SENT, DAD | RENEWING, DAD | REBINDING, DAD =>
      exists m len post, ev = EMsg m len /\ valid_ack s m len post /\ i_ip s' = ack_ip m post /\ usable (i_ip s') (i_mask s') /\
        d_server s' = last_num 54 0 post /\ d_expires s' = d_now s + 1000 * last_num 51 0 post
  | REQUEST_SENT, DISCOVER_SENT | RENEWING, DISCOVER_SENT =>
      conf s' = (0, 0, 0) /\ exists m len, ev = EMsg m len /\ valid_nak s m len
  | REBINDING, DISCOVER_SENT => conf s' = (0, 0, 0) /\
      ((exists m len, ev = EMsg m len /\ valid_nak s m len) \/ (exists now, ev = EPoll now /\ d_expires s <= now))
  | BOUND, DISCOVER_SENT => conf s' = (0, 0, 0) /\ exists now, ev = EPoll now /\ d_expires s <= now
  | BOUND, RENEWING => conf s' = conf s /\ exists now, ev = EPoll now /\ d_renew s <= now < d_expires s
  | RENEWING, REBINDING => conf s' = conf s /\ exists now, ev = EPoll now /\ d_rebind s <= now
  | DAD, BOUND => conf s' = conf s /\ d_probes s = 3 /\ exists now, ev = EPoll now
  | DAD, DISCOVER_SENT => conf s' = (0, 0, 0) /\ exists cip sip sma,
      (ev = EArp sip sma /\ cip = i_ip s \/ ev = EArpOther cip sip sma) /\ sip = cip /\ sma <> d_mac s
  | _, _ => False
  end.

Lemma send_request_keep e s s' o ok : waiting s -> send_request e s = (s', o, ok) ->
  exists tid h n, s' = up_timer s tid h n.
Proof.
  intros Hw H. unfold send_request in H. cbv zeta in H.
  assert (HS : (if dst_eqb (d_st s) RENEWING || dst_eqb (d_st s) REBINDING then s else up_st s REQUEST_SENT) = s).
  { destruct Hw as [E|[E|E]]; rewrite E; cbn; [|reflexivity|reflexivity]. destruct s; ds; subst; reflexivity. }
  rewrite HS in H. clear HS.
  assert (SA : forall t, exists tid h n, schedule_at e s t = up_timer s tid h n).
  { intros t. unfold schedule_at. destruct (e_room e); eauto. }
  assert (SR : forall t, exists tid h n, schedule_rr e s t = up_timer s tid h n).
  { intros t. unfold schedule_rr. destruct (t =? 0); [exists (d_tid s), (d_heap s), (d_nid s); destruct s; reflexivity|apply SA]. }
  destruct (e_send e).
  - destruct (dst_eqb (d_st s) RENEWING); [|destruct (dst_eqb (d_st s) REBINDING)]; injection H as <- _ _; auto. apply SA.
  - injection H as <- _ _. apply SA.
Qed.
Lemma send_discover_st e s s' o ok : send_discover e s = (s', o, ok) ->
  d_st s' = DISCOVER_SENT /\ conf s' = conf s /\ d_server s' = d_server s /\ d_ip s' = d_ip s /\ d_xid s' = d_xid s /\ d_mac s' = d_mac s.
Proof.
  unfold send_discover, schedule_at, conf. cbv zeta. intros H.
  destruct (dst_eqb (d_st s) OFF), (e_send e), (e_room e); injection H as <- _ _; ds; auto 10.
Qed.
Lemma sched_keep e s t : exists tid h n, schedule_at e s t = up_timer s tid h n.
Proof. unfold schedule_at. destruct (e_room e); eauto. Qed.

Lemma cb_trans e s now : LInv s -> CInv s -> d_now s = now -> d_st s <> OFF -> (d_st s = BOUND -> d_renew s <= d_now s) ->
  trans s (EPoll now) (fst (timer_cb e s)).
Proof.
  intros HL (HC0 & HC1 & HC2) <- Hoff HB. unfold timer_cb.
  set (s0 := up_timer s 0 (d_heap s) (d_nid s)).
  assert (INC : forall s2 ok, d_st (inc s2 ok) = d_st s2 /\ conf (inc s2 ok) = conf s2).
  { intros s2 ok. destruct (inc_keep s2 ok) as (K1 & K2 & K3 & K4 & K5 & _). unfold conf. rewrite K3, K4, K5. auto. }
  assert (RS : forall s1, conf (fst (restart e s1)) = (0, 0, 0) /\ d_st (fst (restart e s1)) = DISCOVER_SENT).
  { intros s1. unfold restart. destruct (send_discover e _) as [[s2 o] ok] eqn:E. apply send_discover_st in E as (E1 & E2 & _).
    cbn [fst]. split; [|exact E1]. rewrite E2. reflexivity. }
  unfold trans. change (d_st s0) with (d_st s). change (d_count s0) with (d_count s).
  change (d_expires s0) with (d_expires s). change (d_renew s0) with (d_renew s). change (d_rebind s0) with (d_rebind s).
  change (d_now s0) with (d_now s). change (d_probes s0) with (d_probes s).
  destruct (d_st s) eqn:Est; [congruence|..].
  - destruct (d_count s <? 3) eqn:E3.
    + destruct (send_discover e s0) as [[s1 o] ok] eqn:E. apply send_discover_st in E as (E1 & _). cbn [fst].
      left. rewrite (proj1 (INC s1 ok)). exact E1.
    + cbn [fst]. right. ds. specialize (HC1 ltac:(auto)). split; [lia|eauto].
  - destruct (d_count s <? 3) eqn:E3.
    + destruct (send_request e s0) as [[s1 o] ok] eqn:E. apply send_request_keep in E as (tid & h & n & ->); [|left; exact Est].
      cbn [fst]. left. rewrite (proj1 (INC _ ok)). exact Est.
    + cbn [fst]. right. unfold deconfigure. ds. specialize (HC1 ltac:(auto)). split; [lia|]. split; [reflexivity|eauto].
  - specialize (HB eq_refl). unfold LInv in HL. rewrite Est in HL.
    destruct (negb (d_expires s =? 0) && (d_expires s <=? d_now s)) eqn:EX.
    + right. destruct (RS s0) as (R1 & R2). rewrite R2. split; [exact R1|]. exists (d_now s). split; [reflexivity|lia].
    + replace (negb (d_renew s =? 0) && (d_now s <? d_renew s)) with false by lia.
      destruct (send_request e _) as [[s1 o] ok] eqn:E. apply send_request_keep in E as (tid & h & n & ->); [|right; left; reflexivity].
      cbn [fst]. right. rewrite (proj1 (INC _ ok)), (proj2 (INC _ ok)). ds. split; [reflexivity|]. exists (d_now s). split; [reflexivity|lia].
  - unfold LInv in HL. rewrite Est in HL.
    destruct (negb (d_rebind s =? 0) && (d_rebind s <=? d_now s)) eqn:EX.
    + destruct (send_request e _) as [[s1 o] ok] eqn:E. apply send_request_keep in E as (tid & h & n & ->); [|right; right; reflexivity].
      cbn [fst]. right. rewrite (proj1 (INC _ ok)), (proj2 (INC _ ok)). ds. split; [reflexivity|]. exists (d_now s). split; [reflexivity|lia].
    + destruct (send_request e _) as [[s1 o] ok] eqn:E. apply send_request_keep in E as (tid & h & n & ->); [|right; left; exact Est].
      cbn [fst]. left. rewrite (proj1 (INC _ ok)). exact Est.
  - destruct (negb (d_expires s =? 0) && (d_expires s <=? d_now s)) eqn:EX.
    + right. destruct (RS s0) as (R1 & R2). rewrite R2. split; [exact R1|]. right. exists (d_now s). split; [reflexivity|lia].
    + destruct (send_request e _) as [[s1 o] ok] eqn:E. apply send_request_keep in E as (tid & h & n & ->); [|right; right; exact Est].
      cbn [fst]. left. rewrite (proj1 (INC _ ok)). exact Est.
  - destruct (d_probes s <? 3) eqn:EP.
    + destruct (send_probe e s0) as [o [|]]; cbn [fst]; left.
      * destruct (sched_keep e (up_probes s0 (d_probes s + 1)) (d_now s + 1000)) as (tid & h & n & ->). exact Est.
      * destruct (sched_keep e s0 (d_now s + 1)) as (tid & h & n & ->). exact Est.
    + cbn [fst]. right. destruct (sched_keep e (up_st (up_probes s0 0) BOUND) (d_renew s)) as (tid & h & n & ->).
      ds. split; [reflexivity|]. split; [lia|eauto].
Qed.

Lemma msg_nak e s m len s' o : DInv s -> ev_ok s (EMsg m len) -> poll_msg e m len s = Some (s', o) -> waiting s ->
  d_st s' = DISCOVER_SENT -> valid_nak s m len.
Proof.
  intros (HT & HL & HC & Hn) (V1 & V2 & V3) HS Hw HD. unfold poll_msg in HS.
  destruct (negb (zget m 2 =? 6) || negb (if list_eq_dec Z.eq_dec (slice m 28 6) (d_mac s) then true else false)) eqn:EH.
  { injection HS as <- _. destruct Hw as [W|[W|W]]; congruence. }
  assert (H26 : zget m 2 = 6) by lia.
  assert (Hmac : slice m 28 6 = d_mac s) by (destruct (list_eq_dec Z.eq_dec (slice m 28 6) (d_mac s)); [assumption|cbn in EH; lia]).
  assert (HS' : (do ty <- msg_type m len s; if ty =? 6 then Some (restart e s)
       else do r <- parse_ack e m len s; match r with Some x => Some x | None => Some (s, []) end) = Some (s', o))
    by (destruct Hw as [W|[W|W]]; rewrite W in HS; exact HS).
  clear HS. destruct (msg_type m len s) as [ty|] eqn:EM; cbn [obind] in HS'; [|discriminate].
  destruct (ty =? 6) eqn:E6; [apply nak_iff; try assumption; rewrite EM; f_equal; lia|].
  exfalso. destruct (parse_ack e m len s) as [[[s1 o1]|]|] eqn:EP; cbn [obind] in HS'; [| |discriminate].
  - injection HS' as <- <-. unfold parse_ack in EP.
    destruct (len <? 240) eqn:E240; [discriminate|]. destruct (zget m 0 =? 2); cbn [negb] in EP; [|discriminate].
    destruct (m_magic_ok m); cbn [negb] in EP; [|discriminate]. destruct (m_xid m =? d_xid s); cbn [negb] in EP; [|discriminate].
    destruct (owalk_some m len true V1 V2 E240 V3) as (os & fin & Eow & Hok). rewrite Eow in EP. cbn [obind] in EP.
    injection EP as EP. apply ack_outer_spec in EP as (pre & post & k & T1 & T2 & T3 & T4).
    assert (Hokp : Forall opt_ok post).
    { rewrite T1 in Hok. apply Forall_app in Hok as (_ & Hok). inversion Hok; assumption. }
    apply ack_inner_spec in T3 as (_ & _ & _ & _ & I5 & I6 & I7 & _). cbn [cand0 c_lease c_renew c_rebind] in *.
    pose proof (last_num_range 51 0 post Hokp ltac:(lia)). pose proof (last_num_range 58 0 post Hokp ltac:(lia)).
    pose proof (last_num_range 59 0 post Hokp ltac:(lia)).
    apply ack_commit_inv in T4 as (sv & _ & _ & _ & _ & _ & _ & _ & C & _); try assumption; try lia. congruence.
  - injection HS' as <- <-. destruct Hw as [W|[W|W]]; congruence.
Qed.

Theorem dhcp_transitions s e ev s' o : reach s -> env_ok e -> ev_ok s ev -> step e s ev = Some (s', o) -> trans s ev s'.
Proof.
  intros HR He Hev HS. pose proof (reach_inv s HR) as HD. pose proof HD as (HT & HL & HC & Hn).
  assert (HARP : forall cip sip sma, (ev = EArp sip sma /\ cip = i_ip s \/ ev = EArpOther cip sip sma) ->
     arp_reply e s cip sip sma = (s', o) -> trans s ev s').
  { intros cip sip sma Hc H. unfold arp_reply in H.
    destruct (dst_eqb (d_st s) DAD && (sip =? cip)) eqn:E; [|injection H as <- _; left; reflexivity].
    destruct (list_eq_dec Z.eq_dec sma (d_mac s)) as [|Hne]; [injection H as <- _; left; reflexivity|].
    destruct (conflict_inv e s He HD) as (_ & _ & _ & _ & A5 & A6 & _). rewrite H in *. cbn [fst] in *.
    assert (Hst : d_st s = DAD) by (destruct (d_st s); [discriminate..|reflexivity]).
    right. rewrite Hst, A6. split; [exact A5|]. exists cip, sip, sma. split; [exact Hc|]. split; [lia|exact Hne]. }
  destruct ev as [|m len|now|sip sma|cip sip sma]; cbn [step] in HS.
  - destruct (init_inv e s He HD) as (_ & _ & _ & _ & _ & A6 & A7). injection HS as HS. rewrite HS in *. cbn [fst] in *.
    unfold trans. destruct (d_st s) eqn:Est; try (left; rewrite A6 by discriminate; exact Est).
    destruct (A7 eq_refl) as [->| ->]; [left; reflexivity|right; reflexivity].
  - destruct Hev as (V1 & V2 & V3).
    destruct (msg_inv e s m len He HD V1 V2 V3) as (s1 & o1 & A1 & A2 & A3 & A4 & A5 & A6 & A7 & A8 & A9 & A10).
    rewrite A1 in HS. injection HS as -> ->.
    assert (NAK : waiting s -> d_st s' = DISCOVER_SENT -> valid_nak s m len).
    { intros. eapply msg_nak; eauto. split; auto. }
    assert (HNO : ~ waiting s -> d_st s <> DISCOVER_SENT -> s' = s).
    { intros W1 W2. unfold poll_msg in A1. destruct (_ || _); [congruence|]. destruct (d_st s) eqn:Est; try congruence; exfalso; apply W1; unfold waiting; auto. }
    unfold trans. destruct (d_st s) eqn:Est.
    + left. rewrite HNO; [exact Est|unfold waiting; rewrite Est; nost|discriminate].
    + destruct (d_st s') eqn:Es'; try (destruct (A7 eq_refl ltac:(discriminate)) as (X & _); discriminate X); [left; reflexivity|].
      destruct (A7 eq_refl ltac:(discriminate)) as (_ & X). right. eauto.
    + assert (HW : waiting s) by (left; exact Est).
      destruct (A9 ltac:(discriminate)) as [-> |[Es'|Es']]; [left; exact Est|right; rewrite Es'..].
      * destruct (A10 Es' ltac:(discriminate)). split; [assumption|]. exists m, len. auto.
      * destruct (A8 Es' ltac:(discriminate)) as (post & B1 & B2 & B3 & B4 & B5 & _). exists m, len, post. auto 10.
    + left. rewrite HNO; [exact Est|unfold waiting; rewrite Est; nost|discriminate].
    + assert (HW : waiting s) by (right; left; exact Est).
      destruct (A9 ltac:(discriminate)) as [-> |[Es'|Es']]; [left; exact Est|right; rewrite Es'..].
      * destruct (A10 Es' ltac:(discriminate)). split; [assumption|]. exists m, len. auto.
      * destruct (A8 Es' ltac:(discriminate)) as (post & B1 & B2 & B3 & B4 & B5 & _). exists m, len, post. auto 10.
    + assert (HW : waiting s) by (right; right; exact Est).
      destruct (A9 ltac:(discriminate)) as [-> |[Es'|Es']]; [left; exact Est|right; rewrite Es'..].
      * destruct (A10 Es' ltac:(discriminate)). split; [assumption|]. left. exists m, len. auto.
      * destruct (A8 Es' ltac:(discriminate)) as (post & B1 & B2 & B3 & B4 & B5 & _). exists m, len, post. auto 10.
    + left. rewrite HNO; [exact Est|unfold waiting; rewrite Est; nost|discriminate].
  - destruct (poll_inv e s now He HD Hev) as (_ & _ & _ & _ & _ & A6 & A7).
    change (d_heap (up_now s now)) with (d_heap s) in HS. injection HS as HS. rewrite HS in *. cbn [fst] in *.
    destruct (due now (d_heap s)) as [|x l] eqn:ED.
    + rewrite A6 by reflexivity. left. reflexivity.
    + destruct (A7 ltac:(discriminate)) as (Hoff & ->).
      assert (X : trans (up_timer (up_now s now) (d_tid s) [] (d_nid s)) (EPoll now) (fst (timer_cb e (up_timer (up_now s now) (d_tid s) [] (d_nid s))))); [apply cb_trans|].
      * exact HL.
      * exact HC.
      * reflexivity.
      * exact Hoff.
      * intros X. ds. destruct HT as (_ & [(X1 & _)|(t & X1 & _ & _ & X4)]); rewrite X1 in ED; [discriminate|].
        unfold due in ED. cbn [filter snd] in ED. destruct (t <=? now) eqn:Et; [|discriminate].
        unfold tbound in X4. rewrite X in X4. lia.
      * set (s1 := fst (timer_cb e _)) in *. clearbody s1. unfold trans in *. ds.
        destruct X as [X|X]; [left; exact X|right]. destruct (d_st s), (d_st s1); try exact X.
        all: try (destruct X as (? & ? & ? & X & _); discriminate X); try (destruct X as (? & ? & X & _); discriminate X).
  - eapply HARP; [left; auto|]. congruence.
  - eapply HARP; [right; reflexivity|]. congruence.
Qed.
Print Assumptions dhcp_transitions.

(** ** Stored numbers are 32-bit *)
Definition w32 (x : Z) : Prop := 0 <= x < 4294967296.
Definition RInv (s : dh) : Prop := w32 (d_xid s) /\ w32 (d_server s) /\ w32 (d_ip s) /\ length (d_mac s) = 6%nat.

Lemma offer_inner_range : forall os sv seen mask sv' seen' mask' ok, Forall opt_ok os -> w32 sv ->
  offer_inner os sv seen mask = (sv', seen', mask', ok) -> w32 sv'.
Proof.
  induction os as [|[c d] os IH]; intros sv seen mask sv' seen' mask' ok Ho Hs H; cbn [offer_inner] in H.
  - injection H as <- _ _ _. exact Hs.
  - inversion Ho as [|? ? Ho1 Ho2]; subst.
    destruct (c =? 54).
    + destruct (zlen d <? 4); [injection H as <- _ _ _; exact Hs|]. eapply IH; [exact Ho2| |exact H]. apply du32_range. apply Ho1.
    + destruct (c =? 1); [destruct (zlen d <? 4); [injection H as <- _ _ _; exact Hs|]|]; eapply IH; eauto.
Qed.
Lemma offer_outer_range m fin : forall os s s' ok, Forall opt_ok os -> RInv s -> w32 (m_yiaddr m) ->
  offer_outer m s os fin = (s', ok) -> RInv s' /\ d_xid s' = d_xid s /\ d_mac s' = d_mac s.
Proof.
  induction os as [|[c d] os IH]; intros s s' ok Ho Hs Hy H; cbn [offer_outer] in H.
  - destruct fin as [[|]|]; [destruct (_ && _)|..]; injection H as <- _; auto.
  - inversion Ho as [|? ? Ho1 Ho2]; subst.
    destruct (c =? 53); [|eauto]. destruct (zlen d =? 1); cbn [negb] in H; [|injection H as <- _; auto].
    destruct (zget d 0 =? 2); [|eauto].
    destruct (offer_inner os (d_server s) false 4294967040) as [[[sv seen] mask] okk] eqn:EI.
    apply offer_inner_range in EI; [|assumption|apply Hs]. destruct Hs as (R1 & R2 & R3 & R4).
    assert (K : RInv (up_server s sv) /\ d_xid (up_server s sv) = d_xid s /\ d_mac (up_server s sv) = d_mac s)
      by (unfold RInv; ds; auto).
    destruct okk; cbn [negb] in H; [|injection H as <- _; exact K].
    destruct fin as [[|]|]; [|injection H as <- _; exact K..].
    destruct seen; cbn [negb] in H; [|injection H as <- _; exact K].
    destruct (ip_sane _ _); cbn [negb] in H; [|injection H as <- _; exact K].
    injection H as <- _. unfold RInv, cancel_timer. ds. destruct (d_tid s =? 0); ds; auto 10.
Qed.
Lemma restart_RInv e s : RInv s -> RInv (fst (restart e s)).
Proof.
  intros (R1 & R2 & R3 & R4). unfold restart. destruct (send_discover e _) as [[s1 o] ok] eqn:E.
  apply send_discover_st in E as (_ & _ & E3 & E4 & E5 & E6). cbn [fst]. unfold RInv. rewrite E3, E4, E5, E6.
  unfold deconfigure, cancel_timer. ds. destruct (d_tid s =? 0); ds; unfold w32 in *; auto with zarith.
Qed.
Lemma inc_RInv s ok : RInv s -> RInv (inc s ok).
Proof. unfold inc, RInv. destruct ok; ds; auto. Qed.
Lemma request_RInv e s s' o ok : waiting s -> RInv s -> send_request e s = (s', o, ok) -> RInv s'.
Proof. intros Hw HR H. apply send_request_keep in H as (tid & h & n & ->); [exact HR|exact Hw]. Qed.
Lemma discover_RInv e s s' o ok : RInv s -> send_discover e s = (s', o, ok) -> RInv s'.
Proof. intros HR E. apply send_discover_st in E as (_ & _ & E3 & E4 & E5 & E6). unfold RInv. rewrite E3, E4, E5, E6. exact HR. Qed.

Lemma cb_RInv e s : env_ok e -> RInv s -> RInv (fst (timer_cb e s)).
Proof.
  intros He HR. unfold timer_cb. set (s0 := up_timer s 0 (d_heap s) (d_nid s)).
  assert (HR0 : RInv s0) by exact HR. clearbody s0. clear HR s.
  destruct (d_st s0) eqn:Est; cbn [fst].
  - exact HR0.
  - destruct (d_count s0 <? 3); [|exact HR0]. destruct (send_discover e s0) as [[s1 o] ok] eqn:E. cbn [fst].
    apply inc_RInv. eapply discover_RInv; eauto.
  - destruct (d_count s0 <? 3).
    + destruct (send_request e s0) as [[s1 o] ok] eqn:E. cbn [fst]. apply inc_RInv. eapply request_RInv; eauto. left; exact Est.
    + cbn [fst]. destruct HR0 as (R1 & R2 & R3 & R4). unfold RInv, deconfigure, w32 in *. ds. auto with zarith.
  - destruct (_ && _); [apply restart_RInv; exact HR0|]. destruct (_ && _); [exact HR0|].
    destruct (send_request e _) as [[s1 o] ok] eqn:E. cbn [fst]. apply inc_RInv. eapply request_RInv; [|  |exact E].
    + right; left; reflexivity.
    + destruct HR0 as (R1 & R2 & R3 & R4). destruct He as (_ & He). unfold RInv, w32 in *. ds. auto.
  - destruct (send_request e _) as [[s1 o] ok] eqn:E. cbn [fst]. apply inc_RInv. eapply request_RInv; [|  |exact E].
    + destruct (_ && _); [right; right; reflexivity|right; left; exact Est].
    + destruct (_ && _); exact HR0.
  - destruct (_ && _); [apply restart_RInv; exact HR0|].
    destruct (send_request e _) as [[s1 o] ok] eqn:E. cbn [fst]. apply inc_RInv. eapply request_RInv; [|  |exact E]; [|exact HR0].
    right; right; exact Est.
  - destruct (d_probes s0 <? 3).
    + destruct (send_probe e s0) as [o [|]]; cbn [fst];
        match goal with |- RInv (schedule_at e ?x ?t) => destruct (sched_keep e x t) as (tid & h & n & ->) end; exact HR0.
    + cbn [fst]. match goal with |- RInv (schedule_at e ?x ?t) => destruct (sched_keep e x t) as (tid & h & n & ->) end; exact HR0.
Qed.

Lemma msg_RInv e s m len s' o : env_ok e -> DInv s -> ev_ok s (EMsg m len) -> RInv s -> poll_msg e m len s = Some (s', o) ->
  RInv s' /\ d_xid s' = d_xid s.
Proof.
  intros He HD (V1 & V2 & V3) HR HS. pose proof HD as (HT & HL & HC & Hn).
  assert (Hy : w32 (m_yiaddr m)) by (apply rd32_range; exact V2).
  unfold poll_msg in HS.
  destruct (_ || _); [injection HS as <- _; auto|].
  assert (WAIT : waiting s -> (do ty <- msg_type m len s; if ty =? 6 then Some (restart e s)
       else do r <- parse_ack e m len s; match r with Some x => Some x | None => Some (s, []) end) = Some (s', o) -> RInv s' /\ d_xid s' = d_xid s).
  { intros Hw HS'. destruct (msg_type m len s) as [ty|]; cbn [obind] in HS'; [|discriminate].
    destruct (ty =? 6).
    { pose proof (restart_RInv e s HR) as X. destruct HC as (_ & _ & HC2).
      destruct (restart_inv e s He HT Hn HC2) as (_ & _ & _ & _ & _ & A6 & _). injection HS' as HS'. rewrite HS' in *. auto. }
    destruct (parse_ack e m len s) as [[[s1 o1]|]|] eqn:EP; cbn [obind] in HS'; [|injection HS' as <- _; auto|discriminate].
    injection HS' as <- <-. unfold parse_ack in EP.
    destruct (len <? 240) eqn:E240; [discriminate|]. destruct (zget m 0 =? 2); cbn [negb] in EP; [|discriminate].
    destruct (m_magic_ok m); cbn [negb] in EP; [|discriminate]. destruct (m_xid m =? d_xid s); cbn [negb] in EP; [|discriminate].
    destruct (owalk_some m len true V1 V2 E240 V3) as (os & fin & Eow & Hok). rewrite Eow in EP. cbn [obind] in EP.
    injection EP as EP. apply ack_outer_spec in EP as (pre & post & k & T1 & T2 & T3 & T4).
    assert (Hokp : Forall opt_ok post).
    { rewrite T1 in Hok. apply Forall_app in Hok as (_ & Hok). inversion Hok; assumption. }
    apply ack_inner_spec in T3 as (I1 & I2 & _ & _ & I5 & I6 & I7 & _). cbn [cand0 c_lease c_renew c_rebind c_server c_ip] in *.
    pose proof (last_num_range 51 0 post Hokp ltac:(lia)). pose proof (last_num_range 58 0 post Hokp ltac:(lia)).
    pose proof (last_num_range 59 0 post Hokp ltac:(lia)). pose proof (last_num_range 54 0 post Hokp ltac:(lia)) as R54.
    pose proof (last_num_range 50 (m_yiaddr m) post Hokp Hy) as R50.
    apply ack_commit_inv in T4 as (sv & C1 & C2 & C3 & C4 & C5 & C6 & C7 & C8 & C9 & C10 & C11 & C12 & C13 & C14 & _); try assumption; try lia.
    split; [|exact C11]. unfold RInv. rewrite C11, C12, C9. destruct HR as (R1 & R2 & R3 & R4).
    split; [exact R1|]. split. { rewrite I1 in C1. unfold last_num in R54. destruct (last_opt 54 post); cbn in C1; [|discriminate]. injection C1 as <-. exact R54. }
    split; [|exact R4]. destruct C14 as (_ & HL' & _). unfold LInv in HL'. rewrite C8 in HL'. destruct HL' as (_ & _ & HL' & _).
    rewrite <- HL', C3, I2. unfold last_num in R50. destruct (last_opt 50 post); exact R50. }
  destruct (d_st s) eqn:Est; try (injection HS as <- _; auto; fail); try (apply WAIT; [unfold waiting; auto|exact HS]).
  unfold parse_offer in HS.
  destruct (len <? 240) eqn:E240; [injection HS as <- _; auto|]. destruct (zget m 0 =? 2); cbn [negb] in HS; [|injection HS as <- _; auto].
  destruct (m_magic_ok m); cbn [negb] in HS; [|injection HS as <- _; auto]. destruct (m_xid m =? d_xid s); cbn [negb] in HS; [|injection HS as <- _; auto].
  destruct (owalk_some m len true V1 V2 E240 V3) as (os & fin & Eow & Hok). rewrite Eow in HS. cbn [obind] in HS.
  destruct (offer_outer m s os fin) as [s1 ok] eqn:EO. cbn [obind] in HS.
  pose proof EO as EO'. apply offer_outer_range in EO as (K1 & K2 & K3); try assumption.
  destruct ok; [|injection HS as <- _; auto].
  unfold LInv in HL. rewrite Est in HL. destruct (offer_outer_spec m fin os s s1 true HL EO') as (_ & T).
  destruct (T eq_refl) as (pre & post & sv & mask & _ & _ & _ & _ & _ & _ & _ & T8).
  destruct (send_request e s1) as [[s2 o2] ok2] eqn:ES. cbn [obind] in HS.
  assert (Hw1 : waiting s1) by (left; rewrite T8; reflexivity).
  apply send_request_keep in ES as (tid & h & n & ->); [|exact Hw1].
  injection HS as <- _. split; [exact K1|exact K2].
Qed.

Lemma step_RInv e s ev s' o : env_ok e -> DInv s -> ev_ok s ev -> RInv s -> step e s ev = Some (s', o) -> RInv s'.
Proof.
  intros He HD Hev HR HS.
  assert (ARP : forall cip sip sma, arp_reply e s cip sip sma = (s', o) -> RInv s').
  { intros cip sip sma H. unfold arp_reply in H. destruct (_ && _); [|injection H as <- _; exact HR].
    destruct (list_eq_dec _ _ _); [injection H as <- _; exact HR|]. unfold dad_conflict in H.
    destruct (send_discover e _) as [[s1 o1] ok] eqn:E. injection H as <- _.
    eapply discover_RInv; [|exact E]. destruct HR as (R1 & R2 & R3 & R4). unfold RInv, deconfigure, cancel_timer. ds.
    destruct (d_tid s =? 0); ds; unfold w32 in *; auto with zarith. }
  destruct ev as [|m len|now|sip sma|cip sip sma]; cbn [step] in HS.
  - unfold client_init in HS. destruct (dst_eqb (d_st s) OFF); [|injection HS as <- _; exact HR].
    assert (HX : RInv (up_xid s (e_xid e))). { destruct HR as (R1 & R2 & R3 & R4). destruct He as (_ & He). unfold RInv, w32 in *. ds. auto. }
    destruct (e_sock e); [|injection HS as <- _; exact HX].
    destruct (send_discover e _) as [[s1 o1] ok] eqn:E. injection HS as <- _. eapply discover_RInv; eauto.
  - eapply msg_RInv; eauto.
  - destruct (poll_inv e s now He HD Hev) as (_ & _ & _ & _ & _ & A6 & A7).
    change (d_heap (up_now s now)) with (d_heap s) in HS. injection HS as HS. rewrite HS in *. cbn [fst] in *.
    destruct (due now (d_heap s)) as [|x l] eqn:ED.
    + rewrite A6 by reflexivity. exact HR.
    + destruct (A7 ltac:(discriminate)) as (Hoff & ->). apply cb_RInv; [exact He|exact HR].
  - injection HS as HS. eauto.
  - injection HS as HS. eauto.
Qed.
Lemma reach_RInv s : reach s -> RInv s.
Proof.
  induction 1 as [now ip mask gw dns pin mac Hn Hm|s e ev s' o HR IH He Hev HS].
  - unfold RInv, dinit, w32. ds. repeat split; try lia; exact Hm.
  - eapply step_RInv; eauto. apply reach_inv; assumption.
Qed.

(** ** While a lease is held (also during duplicate address detection) the interface has a
    usable host address with a non-zero mask, and T1 <= T2 <= end of lease. *)
Theorem dhcp_leased_usable s : reach s -> leased s ->
  usable (i_ip s) (i_mask s) /\ i_mask s <> 0 /\ 0 < d_renew s <= d_rebind s /\ d_rebind s <= d_expires s.
Proof.
  intros HR Hl. pose proof (reach_RInv s HR) as (_ & _ & R3 & _). pose proof (reach_inv s HR) as (_ & HL & _).
  unfold LInv in HL.
  assert (X : 0 < d_renew s <= d_rebind s /\ d_rebind s <= d_expires s /\ i_ip s = d_ip s /\ i_mask s <> 0 /\
         ip_sane (i_ip s) (i_mask s) = true) by (destruct Hl as [E|[E|[E|E]]]; rewrite E in HL; exact HL).
  destruct X as (X1 & X2 & X3 & X4 & X5). split; [|auto].
  apply ip_sane_usable; [rewrite X3; exact R3|exact X5].
Qed.
Print Assumptions dhcp_leased_usable.

(** ** Timers *)
(** At most one timer is pending, always in the future. *)
Theorem dhcp_one_timer s : reach s -> d_heap s = [] \/ exists id t, d_heap s = [(id, t)] /\ id = d_tid s /\ d_now s < t.
Proof.
  intros HR. destruct (reach_inv s HR) as ((_ & [(H & _)|(t & H & _ & Ht & _)]) & _); [left; exact H|right].
  exists (d_tid s), t. auto.
Qed.
Print Assumptions dhcp_one_timer.
(** As long as timer insertion succeeds, the client is never stuck: unless it is off, a timer
    is pending, and due within 65 s (DISCOVER, REQUEST), 1 s (conflict detection), or at the
    time the lease prescribes. *)
Theorem dhcp_never_stuck s : reach_room s -> d_st s <> OFF ->
  exists id t, d_heap s = [(id, t)] /\ d_now s < t /\
    match d_st s with
    | OFF => False
    | DISCOVER_SENT => t <= d_now s + 65000
    | REQUEST_SENT => t <= d_now s + 64199
    | DAD => t <= d_now s + 1000
    | BOUND => t <= Z.max (d_renew s) (d_now s + 1)
    | RENEWING => t <= Z.max (d_rebind s) (d_now s + 1)
    | REBINDING => t <= Z.max (d_expires s) (d_now s + 1)
    end.
Proof.
  intros HR Hoff. destruct (reach_room_live s HR) as ((HT & _) & HL). specialize (HL Hoff).
  destruct HT as (_ & [(H & _)|(t & H & _ & Ht & HB)]); [congruence|]. exists (d_tid s), t.
  split; [exact H|]. split; [exact Ht|]. unfold tbound in HB. destruct (d_st s); try exact HB. lia.
Qed.
Print Assumptions dhcp_never_stuck.

(** ** The end of the lease: once it is over, the first poll (two, if the client was still
    renewing) withdraws the address. *)
Lemma reach_room_reach s : reach_room s -> reach s.
Proof. induction 1; [constructor; assumption|eapply R_step; eauto]. Qed.

Lemma poll_due e s now s' o : env_ok e -> DInv s -> d_now s < now -> live s -> d_st s <> OFF ->
  (forall t, d_heap s = [(d_tid s, t)] -> tbound s t -> t <= now) ->
  step e s (EPoll now) = Some (s', o) ->
  s' = fst (timer_cb e (up_timer (up_now s now) (d_tid s) [] (d_nid s))).
Proof.
  intros He HD Hlt HL Hoff Hb HS. cbn [step] in HS.
  destruct (poll_inv e s now He HD ltac:(lia)) as (_ & _ & _ & _ & _ & _ & A7).
  change (d_heap (up_now s now)) with (d_heap s) in HS. injection HS as HS. rewrite HS in *. cbn [fst] in *.
  apply A7. destruct HD as ((_ & [(H & _)|(t & H & _ & Ht & HB)]) & _); [exfalso; apply (HL Hoff); exact H|].
  specialize (Hb t H HB). rewrite H. unfold due. cbn [filter snd]. replace (t <=? now) with true by lia. discriminate.
Qed.

Theorem dhcp_lease_withdrawn_partial s e1 e2 t1 t2 s1 o1 s2 o2 : reach_room s ->
  env_ok e1 -> e_room e1 = true -> env_ok e2 -> e_room e2 = true ->
  d_st s = BOUND \/ d_st s = RENEWING \/ d_st s = REBINDING ->
  d_now s < t1 -> t1 < t2 -> d_expires s <= t1 ->
  step e1 s (EPoll t1) = Some (s1, o1) -> step e2 s1 (EPoll t2) = Some (s2, o2) ->
  conf s2 = (0, 0, 0) /\ bound s2 = false /\ (d_st s <> RENEWING -> conf s1 = (0, 0, 0) /\ d_st s1 = DISCOVER_SENT).
Proof.
  intros HR He1 Hr1 He2 Hr2 Hst Ht1 Ht2 Hex HS1 HS2.
  destruct (reach_room_live s HR) as (HD & HL).
  assert (Hoff : d_st s <> OFF) by (destruct Hst as [E|[E|E]]; rewrite E; discriminate).
  pose proof HD as (HT & HLI & HC & Hn).
  assert (HI : 0 < d_renew s <= d_rebind s /\ d_rebind s <= d_expires s).
  { unfold LInv in HLI. destruct Hst as [E|[E|E]]; rewrite E in HLI; lia. }
  assert (Hdue : forall t, d_heap s = [(d_tid s, t)] -> tbound s t -> t <= t1).
  { intros t _ HB. unfold tbound in HB. destruct Hst as [E|[E|E]]; rewrite E in HB; lia. }
  assert (HR1 : reach_room s1) by (apply (RR_step s e1 (EPoll t1) s1 o1); try assumption; unfold ev_ok; lia).
  pose proof (poll_due e1 s t1 s1 o1 He1 HD Ht1 HL Hoff Hdue HS1) as E1.
  destruct (timer_cb_inv e1 (up_timer (up_now s t1) (d_tid s) [] (d_nid s)) He1) as (B1 & B2 & B3 & B4 & B5 & B6 & B7 & B8);
    [reflexivity|destruct HT; assumption|exact HLI|exact HC|ds; lia|exact Hoff|ds; intros; lia|].
  rewrite <- E1 in *. ds.
  assert (DONE : conf s1 = (0, 0, 0) -> d_st s1 = DISCOVER_SENT -> conf s2 = (0, 0, 0) /\ bound s2 = false).
  { intros X1 X2. pose proof HR1 as HR1'. apply reach_room_reach in HR1'.
    destruct (step_inv e2 s1 (EPoll t2) He2 B1 ltac:(unfold ev_ok; lia)) as (s3 & o3 & E3 & _ & _ & _ & _ & CF).
    rewrite E3 in HS2. injection HS2 as -> ->.
    split.
    - destruct CF as [CF|[CF|(m & len & post & CF & _)]]; [congruence|exact CF|discriminate CF].
    - assert (TR : trans s1 (EPoll t2) s2) by (eapply dhcp_transitions; eauto; unfold ev_ok; lia).
      unfold trans in TR. rewrite X2 in TR. unfold bound. destruct TR as [-> |TR]; [reflexivity|].
      destruct (d_st s2); try reflexivity; destruct TR. }
  destruct (d_st s) eqn:Est; try (exfalso; destruct Hst as [X|[X|X]]; discriminate X).
  - destruct (B6 ltac:(auto) Hex) as (X1 & X2). destruct (DONE X1 X2). auto.
  - destruct (B7 eq_refl Hex) as (X1 & X2 & X3).
    assert (Hoff1 : d_st s1 <> OFF) by (rewrite X1; discriminate).
    destruct (reach_room_live s1 HR1) as (HD1 & HL1).
    assert (E2 : s2 = fst (timer_cb e2 (up_timer (up_now s1 t2) (d_tid s1) [] (d_nid s1)))).
    { apply (poll_due e2 s1 t2 s2 o2 He2 HD1 ltac:(lia) HL1 Hoff1); [|exact HS2].
      intros t _ HB. unfold tbound in HB. rewrite X1 in HB. lia. }
    destruct HD1 as (HT1 & HLI1 & HC1 & Hn1).
    destruct (timer_cb_inv e2 (up_timer (up_now s1 t2) (d_tid s1) [] (d_nid s1)) He2) as (_ & _ & _ & _ & _ & D6 & _);
      [reflexivity|destruct HT1; assumption|exact HLI1|exact HC1|ds; lia|exact Hoff1|ds; intros; congruence|].
    rewrite <- E2 in *. ds. destruct (D6 ltac:(auto) ltac:(lia)) as (Y1 & Y2).
    split; [exact Y1|]. split; [unfold bound; rewrite Y2; reflexivity|congruence].
  - destruct (B6 ltac:(auto) Hex) as (X1 & X2). destruct (DONE X1 X2). auto.
Qed.
Print Assumptions dhcp_lease_withdrawn_partial.

(** ** An accepted ACK sets the lease times from the server's values: the end is now plus
    option 51; T1 and T2 are options 58 and 59 when 0 < T1 < T2 < lease, and otherwise
    defaults that still satisfy T1 < T2 < end for leases of at least 3 s. *)
Theorem dhcp_lease_times s e m len s' o : reach s -> env_ok e -> ev_ok s (EMsg m len) ->
  step e s (EMsg m len) = Some (s', o) -> d_st s' = DAD -> d_st s <> DAD ->
  exists post, valid_ack s m len post /\
    d_expires s' = d_now s + 1000 * last_num 51 0 post /\
    (3 <= last_num 51 0 post -> d_renew s' < d_rebind s' < d_expires s') /\
    (0 < last_num 58 0 post < last_num 59 0 post /\ last_num 59 0 post < last_num 51 0 post ->
       d_renew s' = d_now s + 1000 * last_num 58 0 post /\ d_rebind s' = d_now s + 1000 * last_num 59 0 post).
Proof.
  intros HR He (V1 & V2 & V3) HS H1 H2.
  destruct (msg_inv e s m len He (reach_inv s HR) V1 V2 V3) as (s1 & o1 & A1 & _ & _ & _ & _ & _ & _ & A8 & _).
  cbn [step] in HS. rewrite A1 in HS. injection HS as -> ->.
  destruct (A8 H1 H2) as (post & B1 & B2 & B3 & B4 & B5 & B6 & B7 & B8). exists post.
  split; [exact B1|]. split; [exact B5|]. split; [intros X; split; [apply B6; lia|apply B7; lia]|exact B8].
Qed.
Print Assumptions dhcp_lease_times.

(** ** Conflict detection *)
(** An ARP reply during the detection claiming our address from another hardware address:
    DECLINE to the server, the address is withdrawn, a new DISCOVER. Our own reflected
    reply, and replies for other addresses or at other times, change nothing. *)
Theorem dhcp_conflict s e sip sma s' o : reach s -> env_ok e -> step e s (EArp sip sma) = Some (s', o) ->
  (d_st s = DAD -> sip = i_ip s -> sma <> d_mac s -> conf s' = (0, 0, 0) /\ d_st s' = DISCOVER_SENT /\
     (e_send e = true -> exists p q, o = [Udp 4294967295 p; Udp 4294967295 q])) /\
  (d_st s <> DAD \/ sip <> i_ip s \/ sma = d_mac s -> s' = s /\ o = []).
Proof.
  intros HR He HS. cbn [step] in HS. injection HS as HS. unfold arp_reply in HS. split.
  - intros H1 H2 H3. rewrite H1, H2, Z.eqb_refl in HS. cbn [dst_eqb andb] in HS.
    destruct (list_eq_dec Z.eq_dec sma (d_mac s)) as [|_]; [congruence|].
    destruct (conflict_inv e s He (reach_inv s HR)) as (_ & _ & _ & _ & A5 & A6 & _).
    assert (HO : e_send e = true -> exists p q, snd (dad_conflict e s) = [Udp 4294967295 p; Udp 4294967295 q]).
    { intros Hs. unfold dad_conflict, send_decline, send_discover. rewrite Hs. cbv zeta. cbn [snd app]. eexists _, _. reflexivity. }
    rewrite HS in *. cbn [fst snd] in *. auto.
  - intros H. destruct (dst_eqb (d_st s) DAD && (sip =? i_ip s)) eqn:E; [|injection HS as <- <-; auto].
    destruct (list_eq_dec Z.eq_dec sma (d_mac s)) as [|Hne]; [injection HS as <- <-; auto|].
    exfalso. destruct H as [H|[H|H]]; [|lia|congruence]. apply H. destruct (d_st s); try discriminate. reflexivity.
Qed.
Print Assumptions dhcp_conflict.

(** ** What the client sends *)
(** A BOOTREQUEST of DHCP type [ty] with the given transaction id, hardware address and
    client address, whose options are message type, [os], END. *)
Definition is_msg (p : list Z) (xid : Z) (mac : list Z) (ty ciaddr : Z) (os : list opt) : Prop :=
  zget p 0 = 1 /\ zget p 1 = 1 /\ zget p 2 = 6 /\ num (fld p 4 4) = xid /\ num (fld p 12 4) = ciaddr /\
  fld p 28 6 = mac /\ num (fld p 236 4) = 1669485411 /\ skipn 240 p = enc ((53, [ty]) :: os) ++ [255].

Lemma num_be32 v : w32 v -> num (be32 v) = v.
Proof.
  intros H. unfold w32 in H.
  change (num (be32 v)) with (16777216 * (Z.shiftr v 24 mod 256) + 65536 * (Z.shiftr v 16 mod 256) + 256 * (Z.shiftr v 8 mod 256) + v mod 256).
  rewrite !Z.shiftr_div_pow2 by lia. change (2 ^ 24) with 16777216. change (2 ^ 16) with 65536. change (2 ^ 8) with 256. lia.
Qed.
Lemma bootp_msg s fl ci opts ty os : RInv s -> w32 ci -> opts = enc ((53, [ty]) :: os) ++ [255] ->
  is_msg (bootp s fl ci opts) (d_xid s) (d_mac s) ty ci os.
Proof.
  intros (R1 & _ & _ & R4) Hc ->. unfold is_msg, bootp.
  destruct (d_mac s) as [|a0 [|a1 [|a2 [|a3 [|a4 [|a5 [|]]]]]]]; try discriminate R4.
  set (T := enc ((53, [ty]) :: os) ++ [255]). clearbody T. set (el := elapsed s). clearbody el.
  split; [reflexivity|]. split; [reflexivity|]. split; [reflexivity|].
  split; [transitivity (num (be32 (d_xid s))); [reflexivity|apply num_be32; exact R1]|].
  split; [transitivity (num (be32 ci)); [reflexivity|apply num_be32; exact Hc]|].
  split; [reflexivity|]. split; [reflexivity|]. reflexivity.
Qed.

Definition sent_ok (s s' : dh) (ev : event) (x : out) : Prop :=
  match x with
  | Probe ip => d_st s' = DAD /\ ip = i_ip s'
  | Udp dst p =>
      (d_st s' = DISCOVER_SENT /\ dst = 4294967295 /\ is_msg p (d_xid s') (d_mac s') 1 0 [(55, [1; 3; 6])]) \/
      (d_st s' = REQUEST_SENT /\ dst = 4294967295 /\
         exists d54 d50, num d54 = d_server s' /\ num d50 = d_ip s' /\ zlen d54 = 4 /\ zlen d50 = 4 /\
         is_msg p (d_xid s') (d_mac s') 3 0 [(55, [1; 3; 6]); (54, d54); (50, d50)]) \/
      (d_st s' = RENEWING /\ dst = d_server s' /\ is_msg p (d_xid s') (d_mac s') 3 (i_ip s') [(55, [1; 3; 6])]) \/
      (d_st s' = REBINDING /\ dst = 4294967295 /\ is_msg p (d_xid s') (d_mac s') 3 (i_ip s') [(55, [1; 3; 6])]) \/
      (d_st s = DAD /\ d_st s' = DISCOVER_SENT /\ dst = 4294967295 /\
         exists os50 d50, num d50 = i_ip s /\ os50 = [(50, d50)] /\
         (d_server s = 0 /\ is_msg p (d_xid s) (d_mac s) 7 0 os50 \/
          exists d54, num d54 = d_server s /\ is_msg p (d_xid s) (d_mac s) 7 0 ((54, d54) :: os50)))
  end.

Lemma discover_sent e s s1 o ok s0 ev x : RInv s -> send_discover e s = (s1, o, ok) -> In x o ->
  forall s', d_st s' = DISCOVER_SENT -> d_xid s' = d_xid s1 -> d_mac s' = d_mac s1 -> sent_ok s0 s' ev x.
Proof.
  intros HR E Hx s' H1 H2 H3. pose proof (send_discover_st _ _ _ _ _ E) as (_ & _ & _ & _ & F5 & F6).
  unfold send_discover in E. cbv zeta in E. destruct (e_send e); [|injection E as _ <- _; destruct Hx].
  injection E as _ <- _. destruct Hx as [<-|[]]. left. split; [exact H1|]. split; [reflexivity|]. rewrite H2, H3, F5, F6.
  assert (K : forall s2, (if dst_eqb (d_st s) OFF then up_start s (d_now s) else s) = s2 -> RInv s2 /\ d_xid s2 = d_xid s /\ d_mac s2 = d_mac s).
  { intros s2 <-. destruct (dst_eqb _ _); [|auto]. unfold RInv in *. ds. auto. }
  destruct (K _ eq_refl) as (K1 & K2 & K3). rewrite <- K2, <- K3. apply bootp_msg; [exact K1|unfold w32; lia|reflexivity].
Qed.
Lemma request_sent e s s1 o ok s0 ev x : RInv s -> LInv s -> waiting s -> send_request e s = (s1, o, ok) -> In x o ->
  forall s', d_st s' = d_st s1 -> d_xid s' = d_xid s1 -> d_mac s' = d_mac s1 -> d_server s' = d_server s1 ->
  d_ip s' = d_ip s1 -> i_ip s' = i_ip s1 -> sent_ok s0 s' ev x.
Proof.
  intros HR HL Hw E Hx s' H1 H2 H3 H4 H5 H6.
  pose proof (send_request_keep _ _ _ _ _ Hw E) as (tid & h & n & ->). ds.
  unfold send_request in E. cbv zeta in E.
  assert (HS : (if dst_eqb (d_st s) RENEWING || dst_eqb (d_st s) REBINDING then s else up_st s REQUEST_SENT) = s).
  { destruct Hw as [E1|[E1|E1]]; rewrite E1; cbn; [|reflexivity|reflexivity]. destruct s; ds; subst; reflexivity. }
  rewrite HS in E. clear HS. destruct (e_send e); [|injection E as _ <- _; destruct Hx].
  injection E as _ <- _. destruct Hx as [<-|[]]. pose proof HR as (R1 & R2 & R3 & R4). unfold LInv in HL. unfold sent_ok.
  destruct Hw as [E1|[E1|E1]]; rewrite E1 in *; cbn [dst_eqb orb].
  - right; left. split; [exact H1|]. split; [reflexivity|]. exists (be32 (d_server s)), (be32 (d_ip s)).
    rewrite !num_be32 by assumption. split; [congruence|]. split; [congruence|]. split; [reflexivity|]. split; [reflexivity|].
    rewrite H2, H3. apply bootp_msg; [exact HR|unfold w32; lia|reflexivity].
  - right; right; left. split; [exact H1|]. split; [congruence|]. rewrite H2, H3, H6. apply bootp_msg; [exact HR| |reflexivity].
    destruct HL as (_ & _ & -> & _). exact R3.
  - right; right; right; left. split; [exact H1|]. split; [reflexivity|]. rewrite H2, H3, H6. apply bootp_msg; [exact HR| |reflexivity].
    destruct HL as (_ & _ & -> & _). exact R3.
Qed.
Lemma probe_sent e s o ok x : send_probe e s = (o, ok) -> In x o -> x = Probe (i_ip s).
Proof. unfold send_probe. destruct (_ || _); intros H; injection H as <- _; intros Hx; [destruct Hx|]. destruct Hx as [<-|[]]. reflexivity. Qed.
Lemma restart_sent e s s0 ev x : RInv s -> In x (snd (restart e s)) -> sent_ok s0 (fst (restart e s)) ev x.
Proof.
  intros HR Hx. unfold restart in *. destruct (send_discover e _) as [[s1 o] ok] eqn:E. cbn [fst snd] in *.
  pose proof (send_discover_st _ _ _ _ _ E) as (F1 & _). eapply discover_sent; [|exact E|exact Hx|exact F1|reflexivity|reflexivity].
  destruct HR as (R1 & R2 & R3 & R4). unfold RInv, deconfigure, cancel_timer. ds.
  destruct (d_tid s =? 0); ds; unfold w32 in *; auto with zarith.
Qed.
Lemma inc_keep2 s ok : d_st (inc s ok) = d_st s /\ d_xid (inc s ok) = d_xid s /\ d_mac (inc s ok) = d_mac s /\
  d_server (inc s ok) = d_server s /\ d_ip (inc s ok) = d_ip s /\ i_ip (inc s ok) = i_ip s.
Proof. unfold inc. destruct ok; ds; auto 10. Qed.

Lemma cb_sent e s s0 ev x : env_ok e -> RInv s -> LInv s -> In x (snd (timer_cb e s)) -> sent_ok s0 (fst (timer_cb e s)) ev x.
Proof.
  intros He HR HL. unfold timer_cb. set (s1 := up_timer s 0 (d_heap s) (d_nid s)).
  assert (HR1 : RInv s1) by exact HR. assert (HL1 : LInv s1) by exact HL. clearbody s1. clear HR HL s.
  assert (REQ : forall s2, RInv s2 -> LInv s2 -> waiting s2 ->
     In x (snd (let '(s, o, ok) := send_request e s2 in (inc s ok, o))) -> sent_ok s0 (fst (let '(s, o, ok) := send_request e s2 in (inc s ok, o))) ev x).
  { intros s2 A1 A2 A3. destruct (send_request e s2) as [[s3 o] ok] eqn:E. cbn [fst snd]. intros Hx.
    destruct (inc_keep2 s3 ok) as (K1 & K2 & K3 & K4 & K5 & K6). eapply request_sent; eauto. }
  destruct (d_st s1) eqn:Est.
  - intros [].
  - destruct (d_count s1 <? 3); [|intros []]. destruct (send_discover e s1) as [[s3 o] ok] eqn:E. cbn [fst snd]. intros Hx.
    destruct (inc_keep2 s3 ok) as (K1 & K2 & K3 & _). pose proof (send_discover_st _ _ _ _ _ E) as (F1 & _).
    eapply discover_sent; eauto. congruence.
  - destruct (d_count s1 <? 3); [|intros []]. apply REQ; [exact HR1|exact HL1|left; exact Est].
  - destruct (_ && _); [apply restart_sent; exact HR1|]. destruct (_ && _); [intros []|]. apply REQ.
    + destruct HR1 as (R1 & R2 & R3 & R4). destruct He as (_ & He). unfold RInv, w32 in *. ds. auto.
    + unfold LInv in *. ds. rewrite Est in HL1. exact HL1.
    + right; left; reflexivity.
  - apply REQ.
    + destruct (_ && _); exact HR1.
    + destruct (_ && _); [|exact HL1]. unfold LInv in *. ds. rewrite Est in HL1. exact HL1.
    + destruct (_ && _); [right; right; reflexivity|right; left; exact Est].
  - destruct (_ && _); [apply restart_sent; exact HR1|]. apply REQ; [exact HR1|exact HL1|right; right; exact Est].
  - destruct (d_probes s1 <? 3); [|intros []].
    destruct (send_probe e s1) as [o ok] eqn:EP. destruct ok; cbn [fst snd]; intros Hx; rewrite (probe_sent _ _ _ _ _ EP Hx);
      match goal with |- sent_ok _ (schedule_at e ?y ?t) _ _ => destruct (sched_keep e y t) as (tid & h & n & ->) end;
      (split; [exact Est|reflexivity]).
Qed.

Lemma cancel_conf s : i_ip (cancel_timer s) = i_ip s /\ d_st (cancel_timer s) = d_st s.
Proof. unfold cancel_timer. ds. destruct (d_tid s =? 0); ds; auto. Qed.
Lemma commit_sent e m s k s' o s0 ev x : ack_commit e m s k = Some (s', o) -> In x o -> sent_ok s0 s' ev x.
Proof.
  unfold ack_commit. destruct (c_server k) as [sv|]; [|discriminate]. destruct (_ && _); [|discriminate]. cbv zeta.
  match goal with |- context [send_probe e ?y] => set (s1 := y) end.
  assert (Hst : d_st s1 = DAD).
  { unfold s1, schedule_lease. ds. destruct (c_lease k =? 0); [reflexivity|]. destruct (lease_times _ _ _) as [r b].
    match goal with |- d_st (schedule_at e ?y ?t) = _ => destruct (sched_keep e y t) as (tid & h & n & ->) end. reflexivity. }
  clearbody s1. destruct (send_probe e s1) as [o1 ok] eqn:EP. intros H Hx.
  assert (Ho : o = o1) by congruence. subst o1. rewrite (probe_sent _ _ _ _ _ EP Hx).
  assert (Hs : s' = schedule_at e (if ok then up_probes s1 1 else s1) (d_now (if ok then up_probes s1 1 else s1) + 1000)) by congruence.
  subst s'. match goal with |- sent_ok _ (schedule_at e ?y ?t) _ _ => destruct (sched_keep e y t) as (tid & h & n & ->) end.
  destruct ok; split; try exact Hst; reflexivity.
Qed.

Theorem dhcp_out_messages s e ev s' o x : reach s -> env_ok e -> ev_ok s ev -> step e s ev = Some (s', o) -> In x o ->
  sent_ok s s' ev x.
Proof.
  intros HR He Hev HS Hx. pose proof (reach_inv s HR) as HD. pose proof (reach_RInv s HR) as HRI.
  pose proof HD as (HT & HL & HC & Hn). pose proof HRI as (R1 & R2 & R3 & R4).
  assert (ARP : forall cip sip sma, arp_reply e s cip sip sma = (s', o) -> sent_ok s s' ev x).
  { intros cip sip sma H. unfold arp_reply in H. destruct (dst_eqb (d_st s) DAD && (sip =? cip)) eqn:EC; [|injection H as <- <-; destruct Hx].
    assert (Hst : d_st s = DAD) by (destruct (d_st s); [discriminate..|reflexivity]).
    destruct (list_eq_dec _ _ _); [injection H as <- <-; destruct Hx|]. unfold dad_conflict in H.
    match type of H with context [send_discover e ?y] => set (s2 := y) in H end.
    assert (HR2 : RInv s2).
    { unfold RInv, s2, deconfigure, cancel_timer. ds. destruct (d_tid s =? 0); ds; unfold w32 in *; auto with zarith. }
    destruct (send_discover e s2) as [[s1 o1] ok] eqn:E. injection H as <- <-.
    pose proof (send_discover_st _ _ _ _ _ E) as (F1 & _).
    apply in_app_or in Hx as [Hx|Hx]; [|eapply discover_sent; [exact HR2|exact E|exact Hx|exact F1|reflexivity|reflexivity]].
    unfold send_decline in Hx. destruct (e_send e); [|destruct Hx]. destruct Hx as [<-|[]].
    right; right; right; right. split; [exact Hst|]. split; [exact F1|]. split; [reflexivity|].
    unfold LInv in HL. rewrite Hst in HL. destruct HL as (_ & _ & HLi & _).
    exists [(50, be32 (d_ip s))], (be32 (d_ip s)). rewrite num_be32 by exact R3. split; [congruence|]. split; [reflexivity|].
    destruct (d_server s =? 0) eqn:E0; [left|right].
    - split; [lia|]. apply bootp_msg; [exact HRI|unfold w32; lia|reflexivity].
    - exists (be32 (d_server s)). rewrite num_be32 by exact R2. split; [reflexivity|].
      apply bootp_msg; [exact HRI|unfold w32; lia|reflexivity]. }
  destruct ev as [|m len|now|sip sma|cip sip sma]; cbn [step] in HS.
  - unfold client_init in HS. destruct (dst_eqb (d_st s) OFF); [|injection HS as <- <-; destruct Hx].
    assert (HX : RInv (up_xid s (e_xid e))). { destruct He as (_ & He). unfold RInv, w32 in *. ds. auto. }
    destruct (e_sock e); [|injection HS as <- <-; destruct Hx].
    destruct (send_discover e _) as [[s1 o1] ok] eqn:E. injection HS as <- <-.
    pose proof (send_discover_st _ _ _ _ _ E) as (F1 & _).
    eapply discover_sent; [exact HX|exact E|exact Hx|exact F1|reflexivity|reflexivity].
  - destruct Hev as (V1 & V2 & V3). assert (Hy : w32 (m_yiaddr m)) by (apply rd32_range; exact V2).
    unfold poll_msg in HS. destruct (_ || _); [injection HS as <- <-; destruct Hx|].
    assert (WAIT : (do ty <- msg_type m len s; if ty =? 6 then Some (restart e s)
       else do r <- parse_ack e m len s; match r with Some x => Some x | None => Some (s, []) end) = Some (s', o) -> sent_ok s s' (EMsg m len) x).
    { intros HS'. destruct (msg_type m len s) as [ty|]; cbn [obind] in HS'; [|discriminate].
      destruct (ty =? 6).
      { pose proof (restart_sent e s s (EMsg m len) x HRI) as X. injection HS' as HS'. rewrite HS' in X. apply X. exact Hx. }
      destruct (parse_ack e m len s) as [[[s1 o1]|]|] eqn:EP; cbn [obind] in HS'; [|injection HS' as <- <-; destruct Hx|discriminate].
      injection HS' as <- <-. unfold parse_ack in EP.
      destruct (len <? 240) eqn:E240; [discriminate|]. destruct (zget m 0 =? 2); cbn [negb] in EP; [|discriminate].
      destruct (m_magic_ok m); cbn [negb] in EP; [|discriminate]. destruct (m_xid m =? d_xid s); cbn [negb] in EP; [|discriminate].
      destruct (owalk m len true) as [[os fin]|]; cbn [obind] in EP; [|discriminate].
      injection EP as EP. apply ack_outer_spec in EP as (pre & post & k & _ & _ & _ & T4). eapply commit_sent; eauto. }
    destruct (d_st s) eqn:Est; try (injection HS as <- <-; destruct Hx; fail); try (apply WAIT; exact HS).
    unfold parse_offer in HS.
    destruct (len <? 240) eqn:E240; [injection HS as <- <-; destruct Hx|]. destruct (zget m 0 =? 2); cbn [negb] in HS; [|injection HS as <- <-; destruct Hx].
    destruct (m_magic_ok m); cbn [negb] in HS; [|injection HS as <- <-; destruct Hx]. destruct (m_xid m =? d_xid s); cbn [negb] in HS; [|injection HS as <- <-; destruct Hx].
    destruct (owalk_some m len true V1 V2 E240 V3) as (os & fin & Eow & Hok). rewrite Eow in HS. cbn [obind] in HS.
    destruct (offer_outer m s os fin) as [s1 ok] eqn:EO. cbn [obind] in HS.
    pose proof EO as EO'. apply offer_outer_range in EO as (K1 & K2 & K3); try assumption.
    destruct ok; [|injection HS as <- <-; destruct Hx].
    unfold LInv in HL. rewrite Est in HL. destruct (offer_outer_spec m fin os s s1 true HL EO') as (_ & T).
    destruct (T eq_refl) as (pre & post & sv & mask & _ & _ & _ & _ & _ & _ & T7 & T8).
    assert (Hst1 : d_st s1 = REQUEST_SENT) by (rewrite T8; reflexivity).
    destruct (send_request e s1) as [[s2 o2] ok2] eqn:ES. cbn [obind] in HS. injection HS as <- <-.
    eapply request_sent; [exact K1| |left; exact Hst1|exact ES|exact Hx|reflexivity..].
    unfold LInv. rewrite Hst1. rewrite T8. unfold cancel_timer. ds. destruct (d_tid s =? 0); ds; exact T7.
  - destruct (poll_inv e s now He HD Hev) as (_ & _ & _ & _ & _ & A6 & A7).
    assert (HX : forall p, due now (d_heap s) = [p] -> fire e (up_now s now) [p] = (s', o) ->
       exists q, timer_cb e q = (s', o) /\ RInv q /\ LInv q).
    { intros p Hd HF. cbn [fire] in HF.
      match type of HF with context [timer_cb e ?y] => exists y; assert (HQ : RInv y /\ LInv y) by (split; [exact HRI|exact HL]) end.
      match type of HF with context [timer_cb e ?y] => destruct (timer_cb e y) as [s1 o1] eqn:E end.
      cbn [fire] in HF. rewrite app_nil_r in HF. split; [rewrite <- HF; first [reflexivity|exact E]|exact HQ]. }
    change (d_heap (up_now s now)) with (d_heap s) in HS. injection HS as HS.
    destruct HT as (_ & [(H & _)|(t & H & _)]); rewrite H in *; unfold due in *; cbn [filter snd] in *.
    { cbn [fire] in HS. injection HS as <- <-. destruct Hx. }
    destruct (t <=? now) eqn:Et; [|cbn [fire] in HS; injection HS as <- <-; destruct Hx].
    destruct (HX _ eq_refl HS) as (q & Q1 & Q2 & Q3).
    pose proof (cb_sent e q s (EPoll now) x He Q2 Q3) as X. rewrite Q1 in X. apply X. exact Hx.
  - injection HS as HS. eauto.
  - injection HS as HS. eauto.
Qed.
Print Assumptions dhcp_out_messages.

(** ** A well-formed ACK is accepted: the client does not depend on more than the RFC
    demands -- apart from the message type option coming first, see below. *)
Lemma ack_inner_total s : forall os k,
  (forall d, In (54, d) os -> d_server s = 0 \/ num d = d_server s) ->
  (forall c d, In (c, d) os -> c = 54 \/ c = 50 \/ c = 1 \/ c = 3 \/ c = 6 \/ c = 51 \/ c = 58 \/ c = 59 -> 4 <= zlen d) ->
  exists k', ack_inner s k os = Some k'.
Proof.
  induction os as [|[c d] os IH]; intros k H1 H2; cbn [ack_inner]; [eauto|].
  assert (HO : exists k', ack_opt s k c d = Some k').
  { pose proof (fun X => H2 c d ltac:(left; reflexivity) X) as HC. unfold ack_opt.
    destruct (c =? 54) eqn:E54.
    { replace (zlen d <? 4) with false by lia. assert (c = 54) by lia; subst c. destruct (H1 d ltac:(left; reflexivity)) as [X|X].
      - rewrite X. cbn. eauto.
      - rewrite du32_num, X, Z.eqb_refl, andb_false_r. eauto. }
    destruct (c =? 50) eqn:E50; [replace (zlen d <? 4) with false by lia; eauto|].
    destruct (c =? 1) eqn:E1; [replace (zlen d <? 4) with false by lia; eauto|].
    destruct (c =? 3) eqn:E3; [replace (zlen d <? 4) with false by lia; eauto|].
    destruct ((c =? 6) && (d_dns s =? 0)) eqn:E6; [replace (zlen d <? 4) with false by lia; eauto|].
    destruct (c =? 51) eqn:E51; [replace (zlen d <? 4) with false by lia; eauto|].
    destruct (c =? 58) eqn:E58; [replace (zlen d <? 4) with false by lia; eauto|].
    destruct (c =? 59) eqn:E59; [replace (zlen d <? 4) with false by lia; eauto|]. eauto. }
  destruct HO as (k' & ->). apply IH; intros; [apply H1; right; assumption|eapply H2; [right; eassumption|assumption]].
Qed.

Theorem dhcp_ack_accepted s e m len os : reach s -> env_ok e -> ev_ok s (EMsg m len) -> waiting s ->
  reply_for m len (d_xid s) (d_mac s) ->
  (exists t, f_options m len = enc ((53, [5]) :: os) ++ 255 :: t) -> Forall opt_ok os ->
  (forall c d, In (c, d) os -> c <> 52 /\ c <> 53) ->
  (forall d, In (54, d) os -> num d = d_server s) -> (exists d, In (54, d) os) ->
  (forall c d, In (c, d) os -> c = 54 \/ c = 50 \/ c = 1 \/ c = 3 \/ c = 6 \/ c = 51 \/ c = 58 \/ c = 59 -> 4 <= zlen d) ->
  last_num 51 0 os <> 0 -> ack_mask s os <> 0 -> usable (ack_ip m os) (ack_mask s os) ->
  exists s' o, step e s (EMsg m len) = Some (s', o) /\ d_st s' = DAD /\
    i_ip s' = ack_ip m os /\ i_mask s' = ack_mask s os /\ i_gw s' = last_num 3 (i_gw s) os /\
    d_expires s' = d_now s + 1000 * last_num 51 0 os.
Proof.
  intros HR He (V1 & V2 & V3) Hw HRF (t & HF) Hok H5253 H54 (d54 & Hd54) Hlen Hlease Hmask Hus.
  pose proof (reach_inv s HR) as (HT & HL & HC & Hn).
  pose proof HRF as (HL240 & _).
  apply (reply_hdr m len) in HRF as (F1 & F2 & F3 & F4 & F5 & F6); [|assumption].
  assert (Hok' : Forall opt_ok ((53, [5]) :: os)).
  { constructor; [|exact Hok]. unfold opt_ok, byte. cbn. repeat split; try lia. repeat constructor; lia. }
  assert (HW : forall strict, owalk m len strict = Some ((53, [5]) :: os, Some true)).
  { intros strict. eapply dhcp_options_round_trip; try eassumption; try lia.
    intros d [X|X]; [discriminate X|]. destruct (H5253 _ _ X); lia. }
  assert (HTY : exists ty, msg_type m len s = Some ty /\ ty <> 6).
  { unfold msg_type. rewrite F1, F2, F3, F4, (HW false). cbn [negb obind].
    destruct (type_scan _ (-1) None) as [ty sv] eqn:ET. apply type_scan_spec in ET as (T1 & _).
    destruct (_ && _); [exists (-1); split; [reflexivity|lia]|]. exists ty. split; [reflexivity|].
    cbn [filter snd] in T1. change (zlen [5] =? 1) with true in T1. cbn [last_opt] in T1.
    assert (HNO : last_opt 53 (filter (fun o => zlen (snd o) =? 1) os) = None).
    { destruct (last_opt 53 _) as [d|] eqn:E; [|reflexivity]. apply last_opt_in in E. apply filter_In in E as (E & _).
      destruct (H5253 _ _ E). lia. }
    rewrite HNO in T1. cbn in T1. unfold zget in T1. cbn in T1. lia. }
  destruct HTY as (ty & HTY & Hty).
  destruct (ack_inner_total s os cand0) as (k & HK); [intros d Hd; right; apply H54; exact Hd|exact Hlen|].
  pose proof HK as HK'. apply ack_inner_spec in HK' as (I1 & I2 & I3 & I4 & I5 & I6 & I7 & _).
  cbn [cand0 c_server c_ip c_mask c_gw c_lease c_renew c_rebind] in *.
  pose proof (last_num_range 51 0 os Hok ltac:(lia)) as R51. pose proof (last_num_range 58 0 os Hok ltac:(lia)) as R58.
  pose proof (last_num_range 59 0 os Hok ltac:(lia)) as R59.
  assert (Y1 : match c_ip k with Some v => v | None => m_yiaddr m end = ack_ip m os).
  { rewrite I2. unfold ack_ip, last_num, m_yiaddr. rewrite rd32_fld by lia. destruct (last_opt 50 os); reflexivity. }
  assert (Y2 : match c_mask k with Some v => v | None => if negb (i_mask s =? 0) then i_mask s else d_omask s end = ack_mask s os).
  { rewrite I3. unfold ack_mask, last_num. destruct (last_opt 1 os); [reflexivity|]. cbn. destruct (i_mask s =? 0); reflexivity. }
  assert (Hy : 0 <= ack_ip m os < 4294967296).
  { apply last_num_range; [exact Hok|]. rewrite <- rd32_fld by lia. apply rd32_range. assumption. }
  assert (HCM : exists s' o, ack_commit e m s k = Some (s', o)).
  { unfold ack_commit. rewrite Y1, Y2. destruct (last_opt_some 54 os d54 Hd54) as (d' & Ed & _). rewrite I1, Ed. cbn [option_map upd].
    rewrite I5. replace (last_num 51 0 os =? 0) with false by lia. replace (ack_mask s os =? 0) with false by lia.
    rewrite (proj2 (ip_sane_usable _ _ Hy) Hus). cbn [negb andb]. cbv zeta. destruct (send_probe e _) as [o1 ok]. eauto. }
  destruct HCM as (s' & o & HCM). exists s', o.
  pose proof HCM as HCM'.
  apply ack_commit_inv in HCM' as (sv & C1 & C2 & C3 & C4 & C5 & C6 & C7 & C8 & C9 & C10 & C11 & C12 & C13 & _); try assumption; try lia.
  split.
  - cbn [step]. unfold poll_msg. rewrite F5. cbn [Z.eqb Pos.eqb negb orb].
    destruct (list_eq_dec Z.eq_dec (slice m 28 6) (d_mac s)) as [_|X]; [|congruence]. cbn [negb].
    rewrite HTY. cbn [obind]. replace (ty =? 6) with false by lia.
    unfold parse_ack. rewrite F1, F2, F3, F4, (HW true). cbn [negb obind ack_outer].
    change (53 =? 53) with true. change (zlen [5] =? 1) with true. change (zget [5] 0 =? 5) with true. cbv iota. cbn [negb].
    rewrite HK, HCM. cbn [obind]. destruct Hw as [W|[W|W]]; rewrite W; reflexivity.
  - split; [exact C8|]. split; [congruence|]. split; [congruence|]. split; [|congruence].
    rewrite C5, I4. unfold last_num. destruct (last_opt 3 os); reflexivity.
Qed.
Print Assumptions dhcp_ack_accepted.

(** ** A complete run, and what the client gets wrong *)
Fixpoint runs (s : dh) (l : list (env * event)) : option (dh * list out) :=
  match l with
  | [] => Some (s, [])
  | (e, ev) :: l => do (s, o) <- step e s ev; do (s, o') <- runs s l; Some (s, o ++ o')
  end.
Fixpoint run_ok (s : dh) (l : list (env * event)) : bool :=
  match l with
  | [] => true
  | (e, ev) :: l =>
    (0 <=? e_rnd e) && (0 <=? e_xid e) && (e_xid e <? 4294967296) && e_room e &&
    match ev with
    | EMsg m len => (zlen m =? 552) && forallb (fun b => (0 <=? b) && (b <? 256)) m && (0 <=? len) && (len <=? 552)
    | EPoll now => d_now s <=? now
    | _ => true
    end && match step e s ev with Some (s', _) => run_ok s' l | None => false end
  end.
Lemma runs_reach : forall l s s' o, reach_room s -> run_ok s l = true -> runs s l = Some (s', o) -> reach_room s'.
Proof.
  induction l as [|[e ev] l IH]; intros s s' o HR Hok HS; cbn [runs run_ok] in *; [injection HS as <- _; exact HR|].
  rewrite !andb_true_iff in Hok. destruct Hok as (((((O1 & O2) & O3) & O4) & O5) & O6).
  destruct (step e s ev) as [[s1 o1]|] eqn:E; cbn [obind] in *; [|discriminate].
  destruct (runs s1 l) as [[s2 o2]|] eqn:E2; cbn [obind] in HS; [|discriminate].
  injection HS as <- _. eapply IH; [|exact O6|exact E2].
  eapply RR_step; [exact HR| |exact O4| |exact E]; [unfold env_ok; lia|].
  destruct ev; cbn [ev_ok] in *; try exact I; [|lia].
  rewrite !andb_true_iff in O5. destruct O5 as (((P1 & P2) & P3) & P4). split; [lia|]. split; [|lia].
  rewrite forallb_forall in P2. apply Forall_forall. intros x Hx. specialize (P2 x Hx). unfold byte. lia.
Qed.

Definition mac0 : list Z := [2; 0; 0; 0; 0; 1].
Definition reply (yiaddr xid : Z) (opts : list Z) : list Z :=
  [2; 1; 6; 0] ++ be32 xid ++ repeat 0 8 ++ be32 yiaddr ++ repeat 0 8 ++ mac0 ++ repeat 0 10 ++ repeat 0 192 ++
  [99; 130; 83; 99] ++ opts ++ repeat 0 (312 - length opts).
Definition ip10 := 167772170. Definition srv := 167772161. (* 10.0.0.10, 10.0.0.1 *)
Definition offer1 := reply ip10 77 ([53; 1; 2; 54; 4] ++ be32 srv ++ [1; 4; 255; 255; 255; 0; 255]).
Definition ack1 := reply ip10 77 ([53; 1; 5; 54; 4] ++ be32 srv ++ [1; 4; 255; 255; 255; 0; 51; 4; 0; 0; 14; 16; 255]).
Definition e0 := mkE 77 5 true true true true.
Definition s00 := dinit 1000 0 0 0 0 false mac0.
Definition dora : list (env * event) :=
  [(e0, EInit); (e0, EMsg offer1 552); (e0, EMsg ack1 552); (e0, EPoll 2000); (e0, EPoll 3000); (e0, EPoll 4000)].

Example dora_ok : run_ok s00 dora = true.
Proof. vm_compute; reflexivity. Qed.
(** the run binds 10.0.0.10/24 with T1 at half of one hour *)
Example dora_bound : match runs s00 dora with
  | Some (s, o) => d_st s = BOUND /\ conf s = (ip10, 4294967040, 0) /\ d_renew s = 1000 + 1800000 /\
      d_rebind s = 1000 + 3150000 /\ d_expires s = 1000 + 3600000 /\ map fst (d_heap s) = [d_tid s] /\ length o = 5%nat
  | None => False end.
Proof. vm_compute. repeat split; reflexivity. Qed.
Lemma s00_reach : reach_room s00.
Proof. apply RR_init; [lia|reflexivity]. Qed.
Definition final (l : list (env * event)) : dh := match runs s00 l with Some (s, _) => s | None => s00 end.
Lemma final_reach l : run_ok s00 l = true -> reach_room (final l).
Proof.
  intros H. unfold final. destruct (runs s00 l) as [[s o]|] eqn:E; [|apply s00_reach]. eapply runs_reach; [apply s00_reach|exact H|exact E].
Qed.
Lemma step_bytes_ok s m len : (zlen m =? 552) && forallb (fun b => (0 <=? b) && (b <? 256)) m && (0 <=? len) && (len <=? 552) = true ->
  ev_ok s (EMsg m len).
Proof.
  intros O5. rewrite !andb_true_iff in O5. destruct O5 as (((P1 & P2) & P3) & P4). split; [lia|]. split; [|lia].
  rewrite forallb_forall in P2. apply Forall_forall. intros x Hx. specialize (P2 x Hx). unfold byte. lia.
Qed.
Lemma e0_ok : env_ok e0. Proof. unfold env_ok, e0. cbn. lia. Qed.

(** lease end: the hypotheses of [dhcp_lease_withdrawn_partial] hold for the bound client *)
Example dhcp_lease_withdrawn_nonvacuous : exists s s1 o1 s2 o2, reach_room s /\ d_st s = BOUND /\ d_expires s <= 4000000 /\
  step e0 s (EPoll 4000000) = Some (s1, o1) /\ step e0 s1 (EPoll 4000001) = Some (s2, o2).
Proof.
  exists (final dora).
  destruct (step e0 (final dora) (EPoll 4000000)) as [[s1 o1]|] eqn:E1; [|vm_compute in E1; discriminate E1].
  destruct (step e0 s1 (EPoll 4000001)) as [[s2 o2]|] eqn:E2; [|cbn [step] in E2; discriminate E2].
  exists s1, o1, s2, o2. split; [apply final_reach; vm_compute; reflexivity|]. split; [vm_compute; reflexivity|].
  split; [vm_compute; discriminate|]. split; [reflexivity|exact E2].
Qed.
(** a conflict while probing *)
Example dhcp_conflict_nonvacuous : let s := final (firstn 3 dora) in
  reach_room s /\ d_st s = DAD /\ i_ip s = ip10 /\ d_mac s <> [2; 0; 0; 0; 0; 9].
Proof. cbv zeta. split; [apply final_reach; vm_compute; reflexivity|]. split; [vm_compute; reflexivity|]. split; [vm_compute; reflexivity|vm_compute; discriminate]. Qed.
(** a NAK while requesting *)
Definition nak1 := reply 0 77 ([54; 4] ++ be32 srv ++ [53; 1; 6; 255]).
Example dhcp_nak_nonvacuous : let s := final (firstn 2 dora) in
  reach_room s /\ waiting s /\ match step e0 s (EMsg nak1 552) with Some (s', _) => d_st s' = DISCOVER_SENT | None => False end.
Proof. cbv zeta. split; [apply final_reach; vm_compute; reflexivity|]. split; [left; vm_compute; reflexivity|vm_compute; reflexivity]. Qed.

(** (a) An ACK is refused when its server identifier precedes the message type option,
    although RFC 2131 puts no order on options. *)
Definition ack_rev := reply ip10 77 ([54; 4] ++ be32 srv ++ [53; 1; 5; 1; 4; 255; 255; 255; 0; 51; 4; 0; 0; 14; 16; 255]).
Theorem dhcp_ack_option_order_refuted :
  ~ (forall s e m len os, reach s -> env_ok e -> ev_ok s (EMsg m len) -> waiting s -> reply_for m len (d_xid s) (d_mac s) ->
      (exists t, f_options m len = enc os ++ 255 :: t) -> Forall opt_ok os -> In (53, [5]) os ->
      In (54, be32 (d_server s)) os -> last_num 51 0 os <> 0 -> usable (ack_ip m os) (ack_mask s os) -> length os = 4%nat ->
      exists s' o, step e s (EMsg m len) = Some (s', o) /\ d_st s' = DAD).
Proof.
  intros H. specialize (H (final (firstn 2 dora)) e0 ack_rev 552 [(54, be32 srv); (53, [5]); (1, [255; 255; 255; 0]); (51, [0; 0; 14; 16])]).
  destruct H as (s' & o & HS & HD).
  - apply reach_room_reach, final_reach. vm_compute; reflexivity.
  - apply e0_ok.
  - apply step_bytes_ok. vm_compute; reflexivity.
  - left. vm_compute; reflexivity.
  - split; [lia|]. repeat split; vm_compute; reflexivity.
  - exists (repeat 0 (312 - 22)). vm_compute; reflexivity.
  - repeat constructor; cbn; unfold byte; try lia; repeat constructor; unfold byte; vm_compute; intuition discriminate.
  - right; left; reflexivity.
  - left; vm_compute; reflexivity.
  - vm_compute; discriminate.
  - vm_compute. intuition discriminate.
  - reflexivity.
  - assert (X : match step e0 (final (firstn 2 dora)) (EMsg ack_rev 552) with Some (s, _) => d_st s = REQUEST_SENT | None => False end) by (vm_compute; reflexivity).
    rewrite HS in X. congruence.
Qed.
Print Assumptions dhcp_ack_option_order_refuted.

(** (b) After an exhausted discovery the retry count is not reset: a second
    dhcp_client_init sends one DISCOVER and gives up when its timer fires. *)
Definition exhausted : list (env * event) :=
  [(e0, EInit); (e0, EPoll 100000); (e0, EPoll 200000); (e0, EPoll 300000); (e0, EPoll 400000)].
Theorem dhcp_reinit_retries_refuted :
  ~ (forall s e e' now s1 o1 s2 o2, reach_room s -> env_ok e -> env_ok e' -> e_room e = true -> e_room e' = true ->
       e_sock e = true -> e_send e = true -> e_send e' = true -> d_st s = OFF ->
       step e s EInit = Some (s1, o1) -> d_now s1 <= now -> step e' s1 (EPoll now) = Some (s2, o2) -> d_st s2 = DISCOVER_SENT).
Proof.
  intros H. specialize (H (final exhausted) e0 e0 500000).
  destruct (step e0 (final exhausted) EInit) as [[s1 o1]|] eqn:E1; [|vm_compute in E1; discriminate E1].
  assert (X : match step e0 (final exhausted) EInit with Some (s, _) =>
     d_now s <= 500000 /\ match step e0 s (EPoll 500000) with Some (s', _) => d_st s' = OFF | None => False end | None => False end).
  { vm_compute. split; [discriminate|reflexivity]. }
  rewrite E1 in X. destruct X as (X1 & X2).
  destruct (step e0 s1 (EPoll 500000)) as [[s2 o2]|] eqn:E2; [|destruct X2].
  specialize (H s1 o1 s2 o2). rewrite H in X2; [discriminate X2|..]; try reflexivity; try apply e0_ok; try assumption.
  - apply final_reach. vm_compute; reflexivity.
Qed.
Print Assumptions dhcp_reinit_retries_refuted.

(** (c) While no ARP probe can be sent the client stays in conflict detection for ever: the
    address stays configured past the end of the lease and dhcp_bound stays false. *)
Fixpoint polls (s : dh) (e : env) (l : list Z) : option dh :=
  match l with [] => Some s | now :: l => do (s, _) <- step e s (EPoll now); polls s e l end.
Lemma dad_without_probe : forall l e s s', DInv s -> env_ok e -> e_room e = true -> e_probe e = false ->
  d_st s = DAD -> d_probes s < 3 -> polls s e l = Some s' -> (forall i j, (i <= j)%nat -> nth i (d_now s :: l) 0 <= nth j (d_now s :: l) 0 \/ (length l < j)%nat) ->
  d_st s' = DAD /\ conf s' = conf s /\ bound s' = false.
Proof.
  induction l as [|now l IH]; intros e s s' HD He Hr Hp Hst Hpr HS Hmon.
  - injection HS as <-. unfold bound. rewrite Hst. auto.
  - cbn [polls] in HS. assert (Hle : d_now s <= now).
    { destruct (Hmon 0%nat 1%nat ltac:(lia)) as [X|X]; [exact X|cbn in X; lia]. }
    destruct (step e s (EPoll now)) as [[s1 o1]|] eqn:E; cbn [obind] in HS; [|discriminate].
    destruct (step_inv e s (EPoll now) He HD Hle) as (s2 & o2 & E2 & D2 & N2 & _). rewrite E in E2. injection E2 as <- <-.
    cbn [step] in E. destruct (poll_inv e s now He HD Hle) as (_ & A2 & _ & _ & _ & A6 & A7).
    change (d_heap (up_now s now)) with (d_heap s) in E. injection E as E. rewrite E in *. cbn [fst] in *.
    assert (K : d_st s1 = DAD /\ d_probes s1 = d_probes s /\ conf s1 = conf s).
    { destruct (due now (d_heap s)) as [|x r] eqn:ED.
      - rewrite A6 by reflexivity. auto.
      - destruct (A7 ltac:(discriminate)) as (_ & ->). unfold timer_cb. ds. rewrite Hst.
        replace (d_probes s <? 3) with true by lia. unfold send_probe. rewrite Hp, orb_true_r. cbn [fst].
        match goal with |- context [schedule_at e ?y ?t] => destruct (sched_keep e y t) as (tid & h & n & ->) end. ds. auto. }
    destruct K as (K1 & K2 & K3).
    destruct (IH e s1 s' D2 He Hr Hp K1 ltac:(lia) HS) as (J1 & J2 & J3).
    { intros i j Hij. destruct (Hmon (S i) (S j) ltac:(lia)) as [X|X]; [left|right; cbn [length] in X; lia].
      rewrite A2. exact X. }
    split; [exact J1|]. split; [congruence|exact J3].
Qed.
(** any number of polls at non-decreasing times *)
Theorem dhcp_dad_without_probe l e s s' : reach s -> env_ok e -> e_room e = true -> e_probe e = false ->
  d_st s = DAD -> d_probes s < 3 -> polls s e l = Some s' ->
  (forall i j, (i <= j <= length l)%nat -> nth i (d_now s :: l) 0 <= nth j (d_now s :: l) 0) ->
  d_st s' = DAD /\ conf s' = conf s /\ bound s' = false.
Proof.
  intros HR He Hr Hp Hst Hpr HS Hm. apply (dad_without_probe l e s s'); try assumption; [apply reach_inv; exact HR|].
  intros i j Hij. destruct (Nat.lt_ge_cases (length l) j); [right; assumption|left; apply Hm; lia].
Qed.
Print Assumptions dhcp_dad_without_probe.

(** (d) An OFFER whose server identifier is 0.0.0.0 makes the client accept the ACK of any
    server. *)
Definition offer0 := reply ip10 77 ([53; 1; 2; 54; 4; 0; 0; 0; 0; 255]).
Theorem dhcp_ack_from_selected_server_refuted :
  ~ (forall s e m len s' o post, reach s -> env_ok e -> ev_ok s (EMsg m len) -> d_st s = REQUEST_SENT ->
      step e s (EMsg m len) = Some (s', o) -> d_st s' = DAD -> valid_ack s m len post -> last_num 54 0 post = d_server s).
Proof.
  intros H. set (s := final [(e0, EInit); (e0, EMsg offer0 552)]) in *.
  specialize (H s e0 ack1 552).
  assert (X : match step e0 s (EMsg ack1 552) with Some (s', _) => d_st s' = DAD | None => False end) by (vm_compute; reflexivity).
  destruct (step e0 s (EMsg ack1 552)) as [[s' o]|]; [|exact X].
  specialize (H s' o [(54, be32 srv); (1, [255; 255; 255; 0]); (51, [0; 0; 14; 16])]).
  assert (Y : last_num 54 0 [(54, be32 srv); (1, [255; 255; 255; 0]); (51, [0; 0; 14; 16])] = d_server s).
  { apply H.
    - apply reach_room_reach, final_reach. vm_compute; reflexivity.
    - apply e0_ok.
    - apply step_bytes_ok. vm_compute; reflexivity.
    - vm_compute; reflexivity.
    - reflexivity.
    - exact X.
    - split; [split; [lia|]; repeat split; vm_compute; reflexivity|]. exists []. split; [vm_compute; reflexivity|].
      split; [exists (be32 srv); left; reflexivity|]. split; [|vm_compute; discriminate].
      intros d [Z1|[Z1|[Z1|[]]]]; try discriminate Z1. injection Z1 as <-. split; [vm_compute; discriminate|left; vm_compute; reflexivity]. }
  vm_compute in Y. discriminate Y.
Qed.
Print Assumptions dhcp_ack_from_selected_server_refuted.

(** (e) An ARP reply on another interface that claims that interface's own address aborts
    the detection on the primary interface: the address is declined though nobody uses it. *)
Theorem dhcp_conflict_only_primary_refuted :
  ~ (forall s e cip sip sma s' o, reach s -> env_ok e -> cip <> i_ip s -> step e s (EArpOther cip sip sma) = Some (s', o) ->
       conf s' = conf s).
Proof.
  intros H. set (s := final (firstn 3 dora)) in *.
  specialize (H s e0 1 1 [9; 9; 9; 9; 9; 9]).
  assert (X : match step e0 s (EArpOther 1 1 [9; 9; 9; 9; 9; 9]) with Some (s', _) => conf s' <> conf s | None => False end) by (vm_compute; discriminate).
  destruct (step e0 s (EArpOther 1 1 [9; 9; 9; 9; 9; 9])) as [[s' o]|]; [|exact X]. apply X. apply (H s' o); [|apply e0_ok|vm_compute; discriminate|reflexivity].
  apply reach_room_reach, final_reach. vm_compute; reflexivity.
Qed.
Print Assumptions dhcp_conflict_only_primary_refuted.

(** (f) A successful renewal makes dhcp_bound() false until the address has been probed
    again, although lease and configuration are valid throughout. *)
Definition renewed : list (env * event) := dora ++ [(e0, EPoll 2000000); (e0, EMsg ack1 552)].
Theorem dhcp_bound_during_renewal_refuted :
  ~ (forall s e m len s' o, reach s -> env_ok e -> ev_ok s (EMsg m len) -> bound s = true ->
       step e s (EMsg m len) = Some (s', o) -> conf s' = conf s -> d_now s' < d_expires s' -> bound s' = true).
Proof.
  intros H. set (s := final (firstn 7 renewed)) in *. specialize (H s e0 ack1 552).
  assert (X : match step e0 s (EMsg ack1 552) with Some (s', _) => bound s' = false /\ conf s' = conf s /\ d_now s' < d_expires s' | None => False end).
  { vm_compute. repeat split; reflexivity. }
  destruct (step e0 s (EMsg ack1 552)) as [[s' o]|]; [|exact X]. destruct X as (X1 & X2 & X3).
  rewrite (H s' o) in X1; [discriminate X1|..]; try assumption; try reflexivity; try apply e0_ok.
  - apply reach_room_reach, final_reach. vm_compute; reflexivity.
  - apply step_bytes_ok. vm_compute; reflexivity.
Qed.
Print Assumptions dhcp_bound_during_renewal_refuted.
