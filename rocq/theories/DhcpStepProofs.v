(** One event of the DHCP client. *)
From Verif Require Import Base HttpUrl Bits Arp DhcpOptSpec DhcpOpt DhcpOptProofs DhcpOptProps DhcpSpec Dhcp DhcpProofs DhcpMsgProofs.

(** ** Histories: any interleaving of application calls, replies with arbitrary bytes,
    polls at non-decreasing times and ARP replies, with every send, probe, socket and timer
    insertion succeeding or failing arbitrarily. *)
Definition ev_ok (s : dh) (ev : event) : Prop :=
  match ev with
  | EMsg m len => zlen m = 552 /\ Forall byte m /\ 0 <= len <= 552
  | EPoll now => d_now s <= now
  | _ => True
  end.
Inductive reach : dh -> Prop :=
| R_init now ip mask gw dns pin mac : 0 <= now -> length mac = 6%nat -> reach (dinit now ip mask gw dns pin mac)
| R_step s e ev s' o : reach s -> env_ok e -> ev_ok s ev -> step e s ev = Some (s', o) -> reach s'.
(** the same with room in the timer heap at every event *)
Inductive reach_room : dh -> Prop :=
| RR_init now ip mask gw dns pin mac : 0 <= now -> length mac = 6%nat -> reach_room (dinit now ip mask gw dns pin mac)
| RR_step s e ev s' o : reach_room s -> env_ok e -> e_room e = true -> ev_ok s ev ->
    step e s ev = Some (s', o) -> reach_room s'.

Definition leased (s : dh) : Prop := d_st s = BOUND \/ d_st s = RENEWING \/ d_st s = REBINDING \/ d_st s = DAD.

Lemma TInv_now s : TInv s -> 0 <= d_now s -> forall now, d_now s <= now ->
  due now (d_heap s) = [] -> TInv (up_now s now).
Proof.
  intros (H0 & HT) Hn now Hle Hd. unfold TInv, tbound in *. ds. split; [assumption|].
  destruct HT as [HT|(t & HT & Ht1 & Ht2 & Ht3)]; [left; exact HT|right]. exists t.
  rewrite HT in Hd. unfold due in Hd. cbn [filter snd] in Hd.
  destruct (t <=? now) eqn:E; [discriminate|].
  split; [assumption|]. split; [assumption|]. split; [lia|].
  destruct (d_st s); try exact Ht3; lia.
Qed.

(** one poll *)
Lemma poll_inv e s now : env_ok e -> DInv s -> d_now s <= now ->
  let s' := fst (fire e (up_now s now) (due now (d_heap s))) in
  DInv s' /\ d_now s' = now /\ d_mac s' = d_mac s /\ (e_room e = true -> live s -> live s') /\
  (conf s' = conf s \/ conf s' = (0, 0, 0)) /\
  (due now (d_heap s) = [] -> s' = up_now s now) /\
  (due now (d_heap s) <> [] -> d_st s <> OFF /\ s' = fst (timer_cb e (up_timer (up_now s now) (d_tid s) [] (d_nid s)))).
Proof.
  intros He (HT & HL & HC & Hn) Hle. cbv zeta.
  destruct (due now (d_heap s)) as [|p l] eqn:ED.
  - cbn [fire fst]. split.
    { split; [apply TInv_now; assumption|]. unfold LInv, CInv in *. ds. split; [exact HL|]. split; [exact HC|lia]. }
    split; [reflexivity|]. split; [reflexivity|]. split; [unfold live; ds; auto|]. split; [left; reflexivity|].
    split; [reflexivity|congruence].
  - pose proof HT as (H0 & HT'). destruct HT' as [(HT1 & _)|(t & HT1 & HT2 & HT3 & HT4)].
    { rewrite HT1 in ED. discriminate. }
    rewrite HT1 in ED. unfold due in ED. cbn [filter snd] in ED. destruct (t <=? now) eqn:Et; [|discriminate].
    injection ED as <- <-. cbn [fire fst].
    assert (HX : up_timer (up_now s now) (d_tid (up_now s now)) (heap_cancel (d_heap (up_now s now)) (d_tid s)) (d_nid (up_now s now))
        = up_timer (up_now s now) (d_tid s) [] (d_nid s)).
    { ds. rewrite HT1. unfold heap_cancel. cbn [filter fst]. rewrite Z.eqb_refl. reflexivity. }
    rewrite HX. set (s1 := up_timer (up_now s now) (d_tid s) [] (d_nid s)).
    assert (Hoff : d_st s <> OFF) by (intros X; unfold tbound in HT4; rewrite X in HT4; exact HT4).
    destruct (timer_cb e s1) as [s2 o2] eqn:E. cbn [fst].
    pose proof (timer_cb_inv e s1 He) as HI.
    destruct HI as (A1 & A2 & A3 & A4 & A5 & _).
    + reflexivity.
    + exact H0.
    + unfold LInv, s1 in *. ds. exact HL.
    + unfold CInv, s1 in *. ds. exact HC.
    + unfold s1. ds. lia.
    + exact Hoff.
    + unfold s1. ds. intros X. unfold tbound in HT4. rewrite X in HT4. lia.
    + rewrite E in *. cbn [fst] in *. split; [exact A1|]. split; [exact A2|]. split; [exact A3|].
      split; [auto|]. split; [exact A5|]. split; [congruence|]. split; [assumption|reflexivity].
Qed.

(** ** Reading the header *)
Lemma hdr_reply m len (s : dh) : zlen m = 552 -> (len <? 240) = false -> (zget m 0 =? 2) = true -> m_magic_ok m = true ->
  (m_xid m =? d_xid s) = true -> zget m 2 = 6 -> slice m 28 6 = d_mac s -> reply_for m len (d_xid s) (d_mac s).
Proof.
  intros HM H1 H2 H3 H4 H5 H6. unfold reply_for, m_magic_ok, m_xid in *. rewrite <- !rd32_fld by lia.
  split; [lia|]. split; [lia|]. split; [lia|]. split; [lia|]. split; [assumption|]. exact H6.
Qed.
Lemma reply_hdr m len xid mac : zlen m = 552 -> reply_for m len xid mac ->
  (len <? 240) = false /\ (zget m 0 =? 2) = true /\ m_magic_ok m = true /\ (m_xid m =? xid) = true /\
  zget m 2 = 6 /\ slice m 28 6 = mac.
Proof.
  intros HM (H1 & H2 & H3 & H4 & H5 & H6). unfold m_magic_ok, m_xid. rewrite !rd32_fld by lia.
  rewrite H2, H3, H4. repeat split; try reflexivity; try lia; assumption.
Qed.

(** ** What the accepted replies contain *)
(** An OFFER for this client: it is the reply to its transaction, its options (read to END)
    contain message type 2 and after it a server identifier; the address is usable. *)
Definition valid_offer (s : dh) (m : list Z) (len sv ip : Z) : Prop :=
  reply_for m len (d_xid s) (d_mac s) /\
  exists pre post, owalk m len true = Some (pre ++ (53, [2]) :: post, Some true) /\
    (exists d, In (54, d) post) /\ (forall d, In (54, d) post -> 4 <= zlen d) /\
    sv = last_num 54 0 post /\ ip = num (fld m 16 4) /\ usable ip (last_num 1 4294967040 post).
(** An ACK for this client from server [d_server s] (any server when that is 0). *)
Definition valid_ack (s : dh) (m : list Z) (len : Z) (post : list opt) : Prop :=
  reply_for m len (d_xid s) (d_mac s) /\
  exists pre, owalk m len true = Some (pre ++ (53, [5]) :: post, Some true) /\
    (exists d, In (54, d) post) /\
    (forall d, In (54, d) post -> 4 <= zlen d /\ (d_server s = 0 \/ num d = d_server s)) /\
    last_num 51 0 post <> 0.
(** A NAK: the last message-type option of length 1 is 6, and the last server identifier
    names our server (unless none is known). *)
Definition valid_nak (s : dh) (m : list Z) (len : Z) : Prop :=
  reply_for m len (d_xid s) (d_mac s) /\
  exists os fin, owalk m len false = Some (os, fin) /\
    last_opt 53 (filter (fun o => zlen (snd o) =? 1) os) = Some [6] /\
    (d_server s = 0 \/ exists d, last_opt 54 (filter (fun o => 4 <=? zlen (snd o)) os) = Some d /\ num d = d_server s).
Definition ack_ip (m : list Z) (post : list opt) : Z := last_num 50 (num (fld m 16 4)) post.
Definition ack_mask (s : dh) (post : list opt) : Z :=
  last_num 1 (if i_mask s =? 0 then d_omask s else i_mask s) post.

Lemma owalk_some m len strict : zlen m = 552 -> Forall byte m -> (len <? 240) = false -> 0 <= len <= 552 ->
  exists os e, owalk m len strict = Some (os, e) /\ Forall opt_ok os.
Proof.
  intros HM HB HL HR.
  destruct (dhcp_options_total m len strict HM HB ltac:(lia)) as (os & e & A1 & _ & _ & A2 & _). eauto.
Qed.

Lemma last_num_range c x os : Forall opt_ok os -> 0 <= x < 4294967296 -> 0 <= last_num c x os < 4294967296.
Proof.
  intros H Hx. unfold last_num.
  assert (HH : forall d, last_opt c os = Some d -> Forall byte d).
  { induction H as [|[c' d'] os Ho _ IH]; intros d; cbn; [discriminate|].
    destruct (last_opt c os) as [d0|]; [intros X; injection X as <-; apply IH; reflexivity|].
    destruct (c' =? c); [|discriminate]. intros X; injection X as <-. apply Ho. }
  destruct (last_opt c os) as [d|]; [|assumption]. rewrite <- du32_num. apply du32_range. auto.
Qed.
Lemma last_opt_some c os d : In (c, d) os -> exists d', last_opt c os = Some d' /\ In (c, d') os.
Proof.
  induction os as [|[c' d'] os IH]; [intros []|]. intros [X|X]; cbn.
  - injection X as -> ->. destruct (last_opt c os) as [d0|] eqn:E.
    + exists d0. split; [reflexivity|]. right. clear - E. revert d0 E. induction os as [|[a b] os IH]; intros d0; cbn; [discriminate|].
      destruct (last_opt c os) as [d1|]; [intros Y; injection Y as <-; right; apply IH; reflexivity|].
      destruct (a =? c) eqn:Ea; [|discriminate]. intros Y; injection Y as <-. left. f_equal. lia.
    + rewrite Z.eqb_refl. eauto.
  - destruct (IH X) as (d0 & E & HI). rewrite E. exists d0. split; [reflexivity|right; exact HI].
Qed.

(** ** One message *)
Definition ack_post (e : env) (s : dh) (m : list Z) (len : Z) (s' : dh) : Prop :=
      DInv s' /\ d_now s' = d_now s /\ d_mac s' = d_mac s /\ (e_room e = true -> live s -> live s') /\
      ((s' = s) \/ (conf s' = (0, 0, 0) /\ d_st s' = DISCOVER_SENT /\ d_server s' = 0) \/
       (d_st s' = DAD /\ exists post, valid_ack s m len post /\ i_ip s' = ack_ip m post /\ i_mask s' = ack_mask s post /\
        i_gw s' = last_num 3 (i_gw s) post /\ usable (i_ip s') (i_mask s') /\
        d_server s' = last_num 54 0 post /\ d_expires s' = d_now s + 1000 * last_num 51 0 post /\
         (2 <= last_num 51 0 post -> d_renew s' < d_rebind s') /\ (3 <= last_num 51 0 post -> d_rebind s' < d_expires s') /\
         (0 < last_num 58 0 post < last_num 59 0 post /\ last_num 59 0 post < last_num 51 0 post ->
            d_renew s' = d_now s + 1000 * last_num 58 0 post /\ d_rebind s' = d_now s + 1000 * last_num 59 0 post))).
Definition msg_post (e : env) (s : dh) (m : list Z) (len : Z) (s' : dh) : Prop :=
    DInv s' /\ d_now s' = d_now s /\ d_mac s' = d_mac s /\
    (e_room e = true -> live s -> live s') /\
    (conf s' = conf s \/ conf s' = (0, 0, 0) \/
     ((d_st s = REQUEST_SENT \/ d_st s = RENEWING \/ d_st s = REBINDING) /\
      exists post, valid_ack s m len post /\ i_ip s' = ack_ip m post /\ i_mask s' = ack_mask s post /\
        i_gw s' = last_num 3 (i_gw s) post /\ usable (i_ip s') (i_mask s'))) /\
    (d_st s = DISCOVER_SENT -> d_st s' <> DISCOVER_SENT ->
       d_st s' = REQUEST_SENT /\ valid_offer s m len (d_server s') (d_ip s')) /\
    (d_st s' = DAD -> d_st s <> DAD ->
       exists post, valid_ack s m len post /\ i_ip s' = ack_ip m post /\ usable (i_ip s') (i_mask s') /\ d_server s' = last_num 54 0 post /\
         d_expires s' = d_now s + 1000 * last_num 51 0 post /\
         (2 <= last_num 51 0 post -> d_renew s' < d_rebind s') /\ (3 <= last_num 51 0 post -> d_rebind s' < d_expires s') /\
         (0 < last_num 58 0 post < last_num 59 0 post /\ last_num 59 0 post < last_num 51 0 post ->
            d_renew s' = d_now s + 1000 * last_num 58 0 post /\ d_rebind s' = d_now s + 1000 * last_num 59 0 post)) /\
    (d_st s <> DISCOVER_SENT -> s' = s \/ d_st s' = DISCOVER_SENT \/ d_st s' = DAD) /\
    (d_st s' = DISCOVER_SENT -> d_st s <> DISCOVER_SENT -> conf s' = (0, 0, 0) /\ d_server s' = 0).
Lemma msg_inv e s m len : env_ok e -> DInv s -> zlen m = 552 -> Forall byte m -> 0 <= len <= 552 ->
  exists s' o, poll_msg e m len s = Some (s', o) /\ msg_post e s m len s'.
Proof.
  intros He HD HM HB HLn. pose proof HD as (HT & HL & HC & Hn). unfold poll_msg.
  assert (NOP : exists s' o, Some (s, @nil out) = Some (s', o) /\ msg_post e s m len s').
  { exists s, []. split; [reflexivity|]. split; [assumption|]. split; [reflexivity|]. split; [reflexivity|].
    split; [auto|]. split; [left; reflexivity|]. split; [congruence|]. split; [congruence|]. split; [auto|congruence]. }
  destruct (negb (zget m 2 =? 6) || negb (if list_eq_dec Z.eq_dec (slice m 28 6) (d_mac s) then true else false)) eqn:EH; [exact NOP|].
  assert (H26 : zget m 2 = 6) by lia.
  assert (Hmac : slice m 28 6 = d_mac s) by (destruct (list_eq_dec Z.eq_dec (slice m 28 6) (d_mac s)); [assumption|cbn in EH; lia]).
  clear EH.
  assert (OFFER : d_st s = DISCOVER_SENT -> exists s' o, 
      (do (s, ok) <- parse_offer m len s; if ok : bool then let '(s, o, _) := send_request e s in Some (s, o) else Some (s, [])) = Some (s', o) /\
      DInv s' /\ d_now s' = d_now s /\ d_mac s' = d_mac s /\ (e_room e = true -> live s -> live s') /\ conf s' = conf s /\
      (d_st s' <> DISCOVER_SENT -> d_st s' = REQUEST_SENT /\ valid_offer s m len (d_server s') (d_ip s')) /\ d_st s' <> DAD).
  { intros Est. unfold parse_offer.
    assert (SELF : forall sv, exists s' o, Some (up_server s sv, @nil out) = Some (s', o) /\
      DInv s' /\ d_now s' = d_now s /\ d_mac s' = d_mac s /\ (e_room e = true -> live s -> live s') /\ conf s' = conf s /\
      (d_st s' <> DISCOVER_SENT -> d_st s' = REQUEST_SENT /\ valid_offer s m len (d_server s') (d_ip s')) /\ d_st s' <> DAD).
    { intros sv. eexists _, _. split; [reflexivity|]. unfold DInv, TInv, LInv, CInv, tbound, conf, live in *. ds. rewrite Est in *.
      split; [auto|]. split; [reflexivity|]. split; [reflexivity|]. split; [auto|]. split; [reflexivity|].
      split; [congruence|congruence]. }
    assert (SELF0 := SELF (d_server s)).
    replace (up_server s (d_server s)) with s in SELF0 by (destruct s; reflexivity).
    destruct (len <? 240) eqn:E240; [exact SELF0|].
    destruct (zget m 0 =? 2) eqn:Eop; cbn [negb]; [|exact SELF0].
    destruct (m_magic_ok m) eqn:Emg; cbn [negb]; [|exact SELF0].
    destruct (m_xid m =? d_xid s) eqn:Exid; cbn [negb]; [|exact SELF0].
    destruct (owalk_some m len true HM HB E240 HLn) as (os & fin & Eow & Hok). rewrite Eow. cbn [obind].
    destruct (offer_outer m s os fin) as [s1 ok] eqn:EO.
    unfold LInv in HL. rewrite Est in HL.
    destruct (offer_outer_spec m fin os s s1 ok HL EO) as (F & T).
    destruct ok.
    - destruct (T eq_refl) as (pre & post & sv & mask & T1 & T2 & T3 & T4 & T5 & T6 & T7 & T8).
      destruct (send_request e s1) as [[s2 o] ok2] eqn:ES. cbn [obind].
      assert (HTb : TInv (up_ip (up_server s sv) (m_yiaddr m) mask)) by (unfold TInv, tbound in *; ds; exact HT).
      assert (Hcl : clear s1).
      { pose proof (cancel_clear _ HTb) as Hc. subst s1. unfold clear in *. ds. exact Hc. }
      assert (Hk : d_now s1 = d_now s /\ d_mac s1 = d_mac s /\ d_count s1 = 0 /\ d_probes s1 = d_probes s /\ conf s1 = conf s /\
         d_st s1 = REQUEST_SENT /\ d_server s1 = sv /\ d_ip s1 = m_yiaddr m /\ d_omask s1 = mask).
      { subst s1. unfold conf, cancel_timer. ds. destruct (d_tid s =? 0); ds; auto 20. }
      destruct Hk as (K1 & K2 & K3 & K4 & K5 & K6 & K7 & K8 & K9).
      destruct HC as (HC0 & HC1 & HC2).
      destruct (send_request_inv e s1 s2 o ok2 He Hcl ltac:(lia) ltac:(lia) ltac:(lia)) as (tid & h & n & B1 & B2 & B3); try exact ES.
      { unfold LInv. rewrite K6, K8, K9. exact T7. }
      { left. split; [assumption|lia]. }
      exists s2, o. split; [reflexivity|]. split; [assumption|]. rewrite B1. unfold conf, live in *. ds.
      split; [assumption|]. split; [assumption|]. split; [auto|]. split; [assumption|].
      split; [|congruence]. intros _. split; [assumption|]. rewrite K7, K8. split.
      + apply hdr_reply; assumption.
      + exists pre, post. split; [rewrite Eow, T1, T2; reflexivity|]. split; [assumption|].
        split; [intros d Hd; apply (T4 54 d Hd); auto|]. split; [assumption|].
        split; [apply rd32_fld; lia|]. rewrite <- T6. apply ip_sane_usable; [|assumption]. apply rd32_range. assumption.
    - destruct (F eq_refl) as (sv & ->). cbn [obind]. apply SELF. }
  assert (ACK : d_st s = REQUEST_SENT \/ d_st s = RENEWING \/ d_st s = REBINDING -> exists s' o,
      (do ty <- msg_type m len s; if ty =? 6 then Some (restart e s)
       else do r <- parse_ack e m len s; match r with Some x => Some x | None => Some (s, []) end) = Some (s', o) /\
      ack_post e s m len s').
  { intros Hst.
    assert (SELF : exists s' o, Some (s, @nil out) = Some (s', o) /\
      ack_post e s m len s').
    { exists s, []. split; [reflexivity|]. split; [assumption|]. split; [reflexivity|]. split; [reflexivity|].
      split; [auto|]. left. reflexivity. }
    assert (HTY : exists ty, msg_type m len s = Some ty).
    { unfold msg_type. destruct (len <? 240) eqn:E240; [eauto|]. destruct (m_magic_ok m); cbn [negb]; [|eauto].
      destruct (m_xid m =? d_xid s); cbn [negb]; [|eauto]. destruct (zget m 0 =? 2); cbn [negb]; [|eauto].
      destruct (owalk_some m len false HM HB E240 HLn) as (os & fin & Eow & _). rewrite Eow. cbn [obind].
      destruct (type_scan os (-1) None). destruct (_ && _); eauto. }
    destruct HTY as (ty & ->). cbn [obind]. destruct HC as (HC0 & HC1 & HC2).
    destruct (ty =? 6).
    { destruct (restart_inv e s He HT Hn ltac:(lia)) as (A1 & A2 & A3 & A4 & A5 & A6 & A7 & A8).
      destruct (restart e s) as [s' o]. cbn [fst] in *. exists s', o. split; [reflexivity|]. split; [assumption|].
      split; [assumption|]. split; [assumption|]. split; [unfold live; auto|]. right; left. unfold conf. auto. }
    unfold parse_ack.
    destruct (len <? 240) eqn:E240; [exact SELF|].
    destruct (zget m 0 =? 2) eqn:Eop; cbn [negb]; [|exact SELF].
    destruct (m_magic_ok m) eqn:Emg; cbn [negb]; [|exact SELF].
    destruct (m_xid m =? d_xid s) eqn:Exid; cbn [negb]; [|exact SELF].
    destruct (owalk_some m len true HM HB E240 HLn) as (os & fin & Eow & Hok). rewrite Eow. cbn [obind].
    destruct (ack_outer e m s os fin) as [[s' o]|] eqn:EA; [|exact SELF].
    apply ack_outer_spec in EA as (pre & post & k & T1 & T2 & T3 & T4).
    assert (Hokp : Forall opt_ok post).
    { rewrite T1 in Hok. apply Forall_app in Hok as (_ & Hok). inversion Hok; assumption. }
    apply ack_inner_spec in T3 as (I1 & I2 & I3 & I4 & I5 & I6 & I7 & I8 & I9). cbn [cand0 c_server c_ip c_mask c_gw c_lease c_renew c_rebind] in *.
    pose proof (last_num_range 51 0 post Hokp ltac:(lia)) as R51. pose proof (last_num_range 58 0 post Hokp ltac:(lia)) as R58.
    pose proof (last_num_range 59 0 post Hokp ltac:(lia)) as R59.
    apply ack_commit_inv in T4 as (sv & C1 & C2 & C3 & C4 & C5 & C6 & C7 & C8 & C9 & C10 & C11 & C12 & C13 & C14 & C15 & C16 & C17 & C18); try assumption; try lia.
    rewrite I5, I6, I7 in *.
    exists s', o. split; [reflexivity|]. split; [assumption|]. split; [assumption|]. split; [assumption|].
    split; [auto|]. right; right. split; [assumption|]. exists post.
    rewrite I2, I3, I4 in *.
    assert (Y1 : i_ip s' = ack_ip m post).
    { rewrite C3. unfold ack_ip, last_num, m_yiaddr. rewrite rd32_fld by lia. destruct (last_opt 50 post); reflexivity. }
    split.
    { split; [apply hdr_reply; assumption|]. exists pre. split; [rewrite Eow, T1, T2; reflexivity|].
      split. { rewrite I1 in C1. destruct (last_opt 54 post) as [d|] eqn:E54; [|discriminate].
        assert (X : In (54, d) post).
        { clear - E54. revert d E54. induction post as [|[a b] post IH]; intros d; cbn; [discriminate|].
          destruct (last_opt 54 post) as [d1|]; [intros Y; injection Y as <-; right; apply IH; reflexivity|].
          destruct (a =? 54) eqn:Ea; [|discriminate]. intros Y; injection Y as <-. left. f_equal. lia. }
        eauto. }
      split; assumption. }
    split; [exact Y1|]. split. { rewrite C4. unfold ack_mask, last_num. destruct (last_opt 1 post); [reflexivity|]. cbn. destruct (i_mask s =? 0); reflexivity. }
    split. { rewrite C5. unfold last_num. destruct (last_opt 3 post); reflexivity. }
    split. { apply ip_sane_usable; [|assumption]. rewrite Y1. apply last_num_range; [assumption|]. rewrite <- rd32_fld by lia. apply rd32_range. assumption. }
    split. { rewrite C9. rewrite I1 in C1. unfold last_num. destruct (last_opt 54 post); cbn in C1; congruence. }
    split; [assumption|]. split; [assumption|]. split; assumption. }
  assert (FINACK : (d_st s = REQUEST_SENT \/ d_st s = RENEWING \/ d_st s = REBINDING) -> exists s' o,
      (do ty <- msg_type m len s; if ty =? 6 then Some (restart e s)
       else do r <- parse_ack e m len s; match r with Some x => Some x | None => Some (s, []) end) = Some (s', o) /\
     msg_post e s m len s').
  { intros Hst. destruct (ACK Hst) as (s' & o & A1 & A2 & A3 & A4 & A5 & A6).
    exists s', o. split; [exact A1|]. split; [exact A2|]. split; [exact A3|]. split; [exact A4|]. split; [exact A5|].
    destruct A6 as [-> | [(Z1 & Z2 & Z3)|(Z1 & post & V & P1 & P2 & P3 & P4 & P5 & P6 & P7 & P8 & P9)]].
    - split; [left; reflexivity|]. split; [congruence|]. split; [congruence|]. split; [auto|congruence].
    - split; [auto|]. split; [intros X; destruct Hst as [?|[?|?]]; congruence|]. split; [congruence|]. split; [auto|]. auto.
    - split; [right; right; split; [exact Hst|]; exists post; auto 10|].
      split; [intros X; destruct Hst as [?|[?|?]]; congruence|].
      split; [intros _ _; exists post; auto 14|]. split; [auto|congruence]. }
  destruct (d_st s) eqn:Est; try exact NOP.
  - destruct (OFFER eq_refl) as (s' & o & A1 & A2 & A3 & A4 & A5 & A6 & A7 & A8).
    exists s', o. split; [exact A1|]. split; [exact A2|]. split; [exact A3|]. split; [exact A4|]. split; [exact A5|].
    split; [left; exact A6|]. split; [auto|]. split; [congruence|]. split; congruence.
  - apply FINACK. auto.
  - apply FINACK. auto.
  - apply FINACK. auto.
Qed.

Lemma init_inv e s : env_ok e -> DInv s ->
  let s' := fst (client_init e s) in
  DInv s' /\ d_now s' = d_now s /\ d_mac s' = d_mac s /\ (e_room e = true -> live s -> live s') /\ conf s' = conf s /\
  (d_st s <> OFF -> s' = s) /\ (d_st s = OFF -> d_st s' = OFF \/ d_st s' = DISCOVER_SENT).
Proof.
  intros He HD. pose proof HD as (HT & HL & HC & Hn). cbv zeta. unfold client_init.
  destruct (d_st s) eqn:Est; cbn [dst_eqb fst];
    try (split; [assumption|]; split; [reflexivity|]; split; [reflexivity|]; split; [auto|]; split; [reflexivity|]; split; [reflexivity|congruence]).
  unfold TInv, LInv, CInv, tbound in HT, HL, HC. rewrite Est in *.
  destruct HT as (H0 & [(H1 & H2)|(t & _ & _ & _ & [])]). destruct HC as (HC0 & HC1 & HC2). specialize (HC1 ltac:(auto)).
  destruct (e_sock e).
  - destruct (send_discover e (up_xid s (e_xid e))) as [[s1 o] ok] eqn:E.
    destruct (send_discover_inv e (up_xid s (e_xid e)) s1 o ok He) as (A1 & A2 & A3 & A4 & A5 & A6 & A7 & A8 & A9);
      try exact E; unfold clear in *; ds; try lia; try assumption; [auto|].
    cbn [fst]. split; [assumption|]. split; [assumption|]. split; [assumption|]. split; [unfold live; auto|].
    split; [unfold conf; assumption|]. split; [congruence|]. auto.
  - cbn [fst]. unfold DInv, TInv, LInv, CInv, tbound, live, conf in *. ds. rewrite Est in *.
    split; [|split; [reflexivity|split; [reflexivity|split; [auto|split; [reflexivity|split; [congruence|auto]]]]]].
    split; [split; auto|]. split; [auto|]. split; [|auto]. split; [assumption|]. split; [intros _; lia|lia].
Qed.

Lemma conflict_inv e s : env_ok e -> DInv s ->
  let s' := fst (dad_conflict e s) in
  DInv s' /\ d_now s' = d_now s /\ d_mac s' = d_mac s /\ (e_room e = true -> live s') /\ conf s' = (0, 0, 0) /\
  d_st s' = DISCOVER_SENT /\ d_server s' = 0.
Proof.
  intros He (HT & HL & HC & Hn). cbv zeta. unfold dad_conflict.
  assert (HT1 : TInv (up_probes s 0)) by (unfold TInv, tbound in *; ds; exact HT).
  pose proof (cancel_clear _ HT1) as Hcl.
  assert (Hk : d_now (cancel_timer (up_probes s 0)) = d_now s /\ d_mac (cancel_timer (up_probes s 0)) = d_mac s /\
     d_probes (cancel_timer (up_probes s 0)) = 0).
  { unfold cancel_timer. ds. destruct (d_tid s =? 0); ds; auto. }
  set (c := cancel_timer (up_probes s 0)) in *. clearbody c. destruct Hk as (K1 & K2 & K3).
  set (s1 := up_count (up_st (deconfigure c) OFF) 0).
  destruct (send_discover e s1) as [[s2 o] ok] eqn:E. cbn [fst].
  destruct (send_discover_inv e s1 s2 o ok He) as (A1 & A2 & A3 & A4 & A5 & A6 & A7 & A8 & A9); try exact E;
    unfold s1, deconfigure, clear in *; ds; try lia; try assumption; try reflexivity.
  split; [assumption|]. split; [congruence|]. split; [congruence|]. split; [unfold live; auto|].
  split; [unfold conf; assumption|]. auto.
Qed.

(** what one event may do to the interface configuration *)
Definition cfg_step (s : dh) (ev : event) (s' : dh) : Prop :=
  conf s' = conf s \/ conf s' = (0, 0, 0) \/
  exists m len post, ev = EMsg m len /\ (d_st s = REQUEST_SENT \/ d_st s = RENEWING \/ d_st s = REBINDING) /\
    valid_ack s m len post /\ i_ip s' = ack_ip m post /\ i_mask s' = ack_mask s post /\
    i_gw s' = last_num 3 (i_gw s) post /\ usable (i_ip s') (i_mask s').

Lemma step_inv e s ev : env_ok e -> DInv s -> ev_ok s ev ->
  exists s' o, step e s ev = Some (s', o) /\ DInv s' /\ d_now s <= d_now s' /\ d_mac s' = d_mac s /\
    (e_room e = true -> live s -> live s') /\ cfg_step s ev s'.
Proof.
  intros He HD Hev. pose proof HD as (_ & _ & _ & Hn).
  assert (HARP : forall cip sip sma, exists s' o, Some (arp_reply e s cip sip sma) = Some (s', o) /\ DInv s' /\ d_now s <= d_now s' /\ d_mac s' = d_mac s /\
    (e_room e = true -> live s -> live s') /\ (conf s' = conf s \/ conf s' = (0, 0, 0))).
  { intros cip sip sma. unfold arp_reply.
    assert (NOP : exists s' o, Some (s, @nil out) = Some (s', o) /\ DInv s' /\ d_now s <= d_now s' /\ d_mac s' = d_mac s /\
      (e_room e = true -> live s -> live s') /\ (conf s' = conf s \/ conf s' = (0, 0, 0))).
    { exists s, []. split; [reflexivity|]. split; [assumption|]. split; [lia|]. split; [reflexivity|]. auto. }
    destruct (dst_eqb (d_st s) DAD && (sip =? cip)); [|exact NOP].
    destruct (list_eq_dec Z.eq_dec sma (d_mac s)); [exact NOP|].
    destruct (conflict_inv e s He HD) as (A1 & A2 & A3 & A4 & A5 & A6 & A7).
    destruct (dad_conflict e s) as [s' o]. cbn [fst] in *. exists s', o.
    split; [reflexivity|]. split; [assumption|]. split; [lia|]. split; [assumption|]. split; [auto|]. auto. }
  destruct ev as [|m len|now|sip sma|cip sip sma]; cbn [step ev_ok] in *.
  - destruct (init_inv e s He HD) as (A1 & A2 & A3 & A4 & A5 & A6 & A7). destruct (client_init e s) as [s' o]. cbn [fst] in *.
    exists s', o. split; [reflexivity|]. split; [assumption|]. split; [lia|]. split; [assumption|]. split; [assumption|].
    left. assumption.
  - destruct Hev as (V1 & V2 & V3).
    destruct (msg_inv e s m len He HD V1 V2 V3) as (s' & o & A1 & A2 & A3 & A4 & A5 & A6 & _).
    exists s', o. split; [exact A1|]. split; [assumption|]. split; [lia|]. split; [assumption|]. split; [assumption|].
    destruct A6 as [A6|[A6|(B1 & post & B2 & B3 & B4 & B5 & B6)]]; [left; exact A6|right; left; exact A6|right; right].
    exists m, len, post. auto 10.
  - destruct (poll_inv e s now He HD Hev) as (A1 & A2 & A3 & A4 & A5 & _).
    change (d_heap (up_now s now)) with (d_heap s).
    destruct (fire e (up_now s now) (due now (d_heap s))) as [s' o]. cbn [fst] in *.
    exists s', o. split; [reflexivity|]. split; [assumption|]. split; [lia|]. split; [assumption|]. split; [assumption|].
    unfold cfg_step. tauto.
  - destruct (HARP (i_ip s) sip sma) as (s' & o & A). exists s', o. unfold cfg_step. tauto.
  - destruct (HARP cip sip sma) as (s' & o & A). exists s', o. unfold cfg_step. tauto.
Qed.

Lemma dinit_inv now ip mask gw dns pin mac : 0 <= now -> DInv (dinit now ip mask gw dns pin mac).
Proof.
  intros H. unfold DInv, TInv, LInv, CInv, dinit. ds. split; [split; [lia|left; auto]|]. split; [reflexivity|].
  split; [|assumption]. split; [lia|]. split; [intros; lia|lia].
Qed.
Lemma reach_inv s : reach s -> DInv s.
Proof.
  induction 1 as [now ip mask gw dns pin mac Hn Hm|s e ev s' o HR IH He Hev HS]; [apply dinit_inv; exact Hn|].
  destruct (step_inv e s ev He IH Hev) as (s1 & o1 & E & A & _). rewrite E in HS. injection HS as <- <-. exact A.
Qed.
Lemma reach_room_live s : reach_room s -> DInv s /\ live s.
Proof.
  induction 1 as [now ip mask gw dns pin mac Hn Hm|s e ev s' o HR (IH1 & IH2) He Hr Hev HS].
  - split; [apply dinit_inv; exact Hn|]. intros X; exfalso; apply X; reflexivity.
  - destruct (step_inv e s ev He IH1 Hev) as (s1 & o1 & E & A1 & _ & _ & A2 & _). rewrite E in HS. injection HS as <- <-. auto.
Qed.
