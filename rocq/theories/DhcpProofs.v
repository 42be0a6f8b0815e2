(** Invariants of the DHCP client. *)
From Verif Require Import Base HttpUrl Bits Arp DhcpOptSpec DhcpOpt DhcpOptProofs DhcpOptProps DhcpSpec Dhcp.

Ltac ds := cbn [d_st d_xid d_count d_probes d_server d_ip d_omask d_renew d_rebind d_expires d_start d_now
  d_tid d_heap d_nid i_ip i_mask i_gw d_dns d_pinned d_mac up_st up_xid up_count up_probes up_server up_ip
  up_lease up_start up_now up_timer up_conf] in *.

(** ** Timers *)
Definition tbound (s : dh) (t : Z) : Prop :=
  match d_st s with
  | OFF => False
  | DISCOVER_SENT => t <= d_now s + 65000
  | REQUEST_SENT => t <= d_now s + 64199
  | BOUND => d_renew s <= t <= Z.max (d_renew s) (d_now s + 1)
  | RENEWING => t <= Z.max (d_rebind s) (d_now s + 1)
  | REBINDING => t <= Z.max (d_expires s) (d_now s + 1)
  | DAD => t <= d_now s + 1000
  end.
Definition TInv (s : dh) : Prop :=
  1 <= d_nid s /\
  ((d_heap s = [] /\ d_tid s = 0) \/
   (exists t, d_heap s = [(d_tid s, t)] /\ 1 <= d_tid s < d_nid s /\ d_now s < t /\ tbound s t)).
Definition clear (s : dh) : Prop := d_heap s = [] /\ d_tid s = 0 /\ 1 <= d_nid s.
Definition LInv (s : dh) : Prop :=
  match d_st s with
  | OFF | DISCOVER_SENT => d_ip s = 0
  | REQUEST_SENT => ip_sane (d_ip s) (d_omask s) = true
  | _ => 0 < d_renew s <= d_rebind s /\ d_rebind s <= d_expires s /\ i_ip s = d_ip s /\ i_mask s <> 0 /\
         ip_sane (i_ip s) (i_mask s) = true
  end.
Definition CInv (s : dh) : Prop :=
  0 <= d_count s /\ (d_st s = OFF \/ d_st s = DISCOVER_SENT \/ d_st s = REQUEST_SENT -> d_count s <= 3) /\ 0 <= d_probes s <= 3.
Definition DInv (s : dh) : Prop := TInv s /\ LInv s /\ CInv s /\ 0 <= d_now s.
Definition live (s : dh) : Prop := d_st s <> OFF -> d_heap s <> [].

Definition env_ok (e : env) : Prop := 0 <= e_rnd e /\ 0 <= e_xid e < 4294967296.

Lemma backoff_range s b : 0 < b <= 4000 -> 0 <= d_count s -> 0 < backoff_delay s b <= 64000.
Proof.
  intros Hb Hc. unfold backoff_delay.
  set (c := if 16 <? d_count s then 16 else d_count s).
  assert (0 <= c <= 16) by (unfold c; destruct (16 <? d_count s) eqn:E; lia).
  rewrite Z.shiftl_mul_pow2 by lia.
  assert (0 < 2 ^ c) by (apply Z.pow_pos_nonneg; lia).
  destruct (64000 <? b * 2 ^ c) eqn:E; [lia|]. nia.
Qed.
Lemma discover_delay_range e s : env_ok e -> 0 <= d_count s -> 0 <= discover_delay e s <= 65000.
Proof.
  intros He Hc. unfold discover_delay. pose proof (backoff_range s 4000 ltac:(lia) Hc).
  set (b := backoff_delay s 4000) in *. clearbody b.
  pose proof (Z.mod_pos_bound (e_rnd e) 2001 ltac:(lia)).
  destruct (1000 <? b) eqn:E; lia.
Qed.
Lemma renew_delay_range r : 0 <= r -> 1 <= renew_delay r /\ renew_delay r <= Z.max r 1.
Proof.
  intros Hr. unfold renew_delay.
  destruct (r / 2 <? 60000) eqn:E1.
  - destruct (r <? 60000) eqn:E2; [destruct (r =? 0) eqn:E3; lia|]. cbn. lia.
  - destruct (r <? r / 2) eqn:E2; [destruct (r =? 0) eqn:E3; lia|]. destruct (r / 2 =? 0) eqn:E3; lia.
Qed.

(** [schedule_at] on a clear client *)
Definition same_but_timer (s s' : dh) : Prop := exists t h n, s' = up_timer s t h n.
Lemma schedule_at_clear e s t : clear s ->
  exists tid h n, schedule_at e s t = up_timer s tid h n /\ 1 <= n /\
    ((e_room e = false /\ h = [] /\ tid = 0) \/
     (e_room e = true /\ 1 <= tid < n /\ h = [(tid, Z.max t (d_now s + 1))])).
Proof.
  intros (H1 & H2 & H3). unfold schedule_at. rewrite H1. cbn [app].
  destruct (e_room e).
  - exists (d_nid s), [(d_nid s, Z.max t (d_now s + 1))], (d_nid s + 1).
    split; [f_equal; f_equal; f_equal; destruct (d_now s <? t) eqn:E; lia|]. split; [lia|].
    right. split; [reflexivity|]. split; [lia|reflexivity].
  - exists 0, [], (d_nid s). split; [reflexivity|]. split; [lia|]. left. auto.
Qed.
Lemma cancel_clear s : TInv s -> clear (cancel_timer s).
Proof.
  intros (H0 & [(H1 & H2)|(t & H1 & H2 & _)]); unfold cancel_timer, clear; ds.
  - rewrite H2. cbn [Z.eqb]. ds. auto.
  - replace (d_tid s =? 0) with false by lia. ds. rewrite H1. unfold heap_cancel. cbn [filter fst].
    rewrite Z.eqb_refl. cbn. auto.
Qed.

(** ** Sending *)
Ltac nost := let H := fresh in intros H; repeat (destruct H as [H|H]; [discriminate H|]); discriminate H.
Ltac tinv := unfold TInv, tbound in *; ds.

Lemma send_discover_inv e s s' o ok : env_ok e -> clear s -> 0 <= d_now s -> 0 <= d_count s <= 3 ->
  0 <= d_probes s <= 3 -> d_ip s = 0 -> send_discover e s = (s', o, ok) ->
  DInv s' /\ d_st s' = DISCOVER_SENT /\ d_count s' = d_count s /\ (e_room e = true -> d_heap s' <> []) /\
  (i_ip s', i_mask s', i_gw s') = (i_ip s, i_mask s, i_gw s) /\ d_xid s' = d_xid s /\ d_now s' = d_now s /\
  d_server s' = d_server s /\ d_mac s' = d_mac s.
Proof.
  intros He Hcl Hn Hc Hp Hip H. unfold send_discover in H.
  set (s1 := if dst_eqb (d_st s) OFF then up_start s (d_now s) else s) in H.
  assert (H1 : clear s1 /\ d_now s1 = d_now s /\ d_count s1 = d_count s /\ d_probes s1 = d_probes s /\ d_ip s1 = 0 /\
     (i_ip s1, i_mask s1, i_gw s1) = (i_ip s, i_mask s, i_gw s) /\ d_xid s1 = d_xid s /\ d_server s1 = d_server s /\ d_mac s1 = d_mac s).
  { unfold s1. destruct (dst_eqb (d_st s) OFF); unfold clear in *; ds; auto 20. }
  clearbody s1. destruct H1 as (Hcl1 & Hn1 & Hc1 & Hp1 & Hip1 & Hif & Hx & Hsv & Hmac).
  pose proof (discover_delay_range e s1 He ltac:(lia)) as HD.
  destruct (e_send e).
  - destruct (schedule_at_clear e s1 (d_now s1 + discover_delay e s1) Hcl1) as (tid & h & n & E & Hnid & HT).
    set (dl := discover_delay e s1) in *. clearbody dl.
    cbv zeta in H. rewrite E in H. injection H as <- <- <-. ds.
    split; [|split; [reflexivity|split; [assumption|split; [|auto 10]]]].
    + split; [|split; [exact Hip1|split; [|ds; lia]]].
      * tinv. split; [lia|]. destruct HT as [(_ & -> & ->)|(_ & Ht & ->)]; [left; auto|].
        right. eexists. split; [reflexivity|]. lia.
      * unfold CInv. ds. split; [lia|]. split; [lia|lia].
    + intros Hr. destruct HT as [(HT & _)|(_ & _ & ->)]; congruence.
  - cbv zeta in H. destruct (schedule_at_clear e (up_st s1 DISCOVER_SENT) (d_now s1 + 1)) as (tid & h & n & E & Hnid & HT).
    { unfold clear in *. ds. assumption. }
    rewrite E in H. injection H as <- <- <-. ds.
    split; [|split; [reflexivity|split; [assumption|split; [|auto 10]]]].
    + split; [|split; [exact Hip1|split; [|ds; lia]]].
      * tinv. split; [lia|]. destruct HT as [(_ & -> & ->)|(_ & Ht & ->)]; [left; auto|].
        right. eexists. split; [reflexivity|]. lia.
      * unfold CInv. ds. split; [lia|]. split; [lia|lia].
    + intros Hr. destruct HT as [(HT & _)|(_ & _ & ->)]; congruence.
Qed.

(** a request in one of its three states *)
Lemma send_request_inv e s s' o ok : env_ok e -> clear s -> 0 <= d_now s -> 0 <= d_count s ->
  0 <= d_probes s <= 3 ->
  LInv s -> d_st s = REQUEST_SENT /\ d_count s <= 3 \/ d_st s = RENEWING \/ d_st s = REBINDING ->
  send_request e s = (s', o, ok) ->
  exists tid h n, s' = up_timer s tid h n /\ DInv s' /\ (e_room e = true -> h <> []).
Proof.
  intros He Hcl Hn Hc Hp HL Hst H. unfold send_request in H.
  assert (HS : (if dst_eqb (d_st s) RENEWING || dst_eqb (d_st s) REBINDING then s else up_st s REQUEST_SENT) = s).
  { destruct Hst as [(E & _)|[E|E]]; rewrite E; cbn; [|reflexivity|reflexivity].
    destruct s; ds; subst; reflexivity. }
  cbv zeta in H. rewrite HS in H. clear HS.
  assert (FIN : forall t, (d_st s = REQUEST_SENT -> t <= d_now s + 64199) ->
      (d_st s = RENEWING -> t <= Z.max (d_rebind s) (d_now s + 1)) ->
      (d_st s = REBINDING -> t <= Z.max (d_expires s) (d_now s + 1)) ->
      exists tid h n, schedule_at e s t = up_timer s tid h n /\ DInv (schedule_at e s t) /\ (e_room e = true -> h <> [])).
  { intros t T1 T2 T3. destruct (schedule_at_clear e s t Hcl) as (tid & h & n & E & Hnid & HT).
    rewrite E. exists tid, h, n. split; [reflexivity|]. split.
    - split; [|split; [|split]].
      + unfold TInv, tbound. ds. split; [lia|].
        destruct HT as [(_ & -> & ->)|(_ & Ht & ->)]; [left; auto|].
        right. eexists. split; [reflexivity|]. split; [lia|]. split; [lia|].
        destruct Hst as [(Es & _)|[Es|Es]]; rewrite Es in *; [specialize (T1 eq_refl)|specialize (T2 eq_refl)|specialize (T3 eq_refl)]; lia.
      + unfold LInv in *. ds. assumption.
      + unfold CInv. ds. split; [lia|]. split; [|lia]. destruct Hst as [(Es & ?)|[Es|Es]]; rewrite Es; [intros; lia|nost..].
      + ds. lia.
    - intros Hr. destruct HT as [(HT & _)|(_ & _ & ->)]; congruence. }
  assert (HRR : forall dl, 0 < dl -> exists t, schedule_rr e s dl = schedule_at e s t /\ t <= Z.max dl (d_now s + 1)).
  { intros dl Hdl. unfold schedule_rr. replace (dl =? 0) with false by lia.
    eexists. split; [reflexivity|].
    set (r := if d_now s <? dl then dl - d_now s else 0).
    assert (0 <= r) by (unfold r; destruct (d_now s <? dl) eqn:E; lia).
    pose proof (renew_delay_range r ltac:(lia)). unfold r in *. destruct (d_now s <? dl) eqn:E; lia. }
  destruct (e_send e).
  - destruct Hst as [(Es & Hc3)|[Es|Es]]; rewrite Es in H; cbn [dst_eqb orb] in H; injection H as <- <- <-.
    + apply FIN; try congruence. intros _.
      pose proof (backoff_range s 2000 ltac:(lia) ltac:(lia)). pose proof (Z.mod_pos_bound (e_rnd e) 200 ltac:(lia)). lia.
    + unfold LInv in HL. rewrite Es in HL.
      destruct (HRR (d_rebind s) ltac:(lia)) as (t & -> & Ht). apply FIN; intros; first [exact Ht | congruence].
    + unfold LInv in HL. rewrite Es in HL.
      destruct (HRR (d_expires s) ltac:(lia)) as (t & -> & Ht). apply FIN; intros; first [exact Ht | congruence].
  - injection H as <- <- <-. apply FIN; intros _; lia.
Qed.

Lemma restart_inv e s : env_ok e -> TInv s -> 0 <= d_now s -> 0 <= d_probes s <= 3 ->
  DInv (fst (restart e s)) /\ d_st (fst (restart e s)) = DISCOVER_SENT /\
  (e_room e = true -> d_heap (fst (restart e s)) <> []) /\
  (i_ip (fst (restart e s)), i_mask (fst (restart e s)), i_gw (fst (restart e s))) = (0, 0, 0) /\
  d_now (fst (restart e s)) = d_now s /\ d_xid (fst (restart e s)) = d_xid s /\
  d_server (fst (restart e s)) = 0 /\ d_mac (fst (restart e s)) = d_mac s.
Proof.
  intros He HT Hn Hp. unfold restart.
  pose proof (cancel_clear s HT) as Hcl.
  assert (Hk : d_now (cancel_timer s) = d_now s /\ d_count (cancel_timer s) = 0 /\ d_probes (cancel_timer s) = d_probes s /\
               d_xid (cancel_timer s) = d_xid s /\ d_mac (cancel_timer s) = d_mac s).
  { unfold cancel_timer. ds. destruct (d_tid s =? 0); ds; auto. }
  set (c := cancel_timer s) in *. clearbody c.
  set (s1 := up_st (deconfigure c) OFF).
  destruct (send_discover e s1) as [[s2 o] ok] eqn:E. cbn [fst].
  destruct (send_discover_inv e s1 s2 o ok He) as (A1 & A2 & A3 & A4 & A5 & A6 & A7 & A8 & A9); try exact E;
    unfold s1, deconfigure, clear in *; ds; try lia; try assumption; try reflexivity.
  split; [assumption|]. split; [assumption|]. split; [assumption|]. rewrite A5, A6, A7, A8, A9.
  destruct Hk as (? & ? & ? & ? & ?). auto.
Qed.

(** ** The timer callback *)
Lemma inc_inv s ok : DInv s -> (d_st s = OFF \/ d_st s = DISCOVER_SENT \/ d_st s = REQUEST_SENT -> d_count s < 3) -> DInv (inc s ok).
Proof.
  intros (HT & HL & HC & Hn) H3. unfold inc. destruct ok; [|split; [assumption|]; split; [assumption|]; split; assumption].
  unfold DInv, TInv, tbound, LInv, CInv in *. ds.
  assert (0 <= u32 (d_count s + 1)) by (unfold u32; lia).
  split; [assumption|]. split; [assumption|]. split; [|assumption].
  split; [assumption|]. split; [|lia]. intros Hs. specialize (H3 Hs). unfold u32. lia.
Qed.
Lemma inc_keep s ok : d_st (inc s ok) = d_st s /\ d_heap (inc s ok) = d_heap s /\ i_ip (inc s ok) = i_ip s /\
  i_mask (inc s ok) = i_mask s /\ i_gw (inc s ok) = i_gw s /\ d_now (inc s ok) = d_now s /\
  d_renew (inc s ok) = d_renew s /\ d_rebind (inc s ok) = d_rebind s /\ d_expires (inc s ok) = d_expires s /\
  d_ip (inc s ok) = d_ip s /\ d_mac (inc s ok) = d_mac s /\ d_xid (inc s ok) = d_xid s /\ d_server (inc s ok) = d_server s.
Proof. unfold inc. destruct ok; ds; auto 20. Qed.

Definition conf (s : dh) : Z * Z * Z := (i_ip s, i_mask s, i_gw s).

(** after firing: an invariant state; the interface configuration is kept, or withdrawn *)
Lemma timer_cb_inv e s : env_ok e -> d_heap s = [] -> 1 <= d_nid s -> LInv s -> CInv s -> 0 <= d_now s ->
  d_st s <> OFF -> (d_st s = BOUND -> d_renew s <= d_now s) ->
  let s' := fst (timer_cb e s) in
  DInv s' /\ d_now s' = d_now s /\ d_mac s' = d_mac s /\ (e_room e = true -> live s') /\
  (conf s' = conf s \/ conf s' = (0, 0, 0)) /\
  (d_st s = BOUND \/ d_st s = REBINDING -> d_expires s <= d_now s -> conf s' = (0, 0, 0) /\ d_st s' = DISCOVER_SENT) /\
  (d_st s = RENEWING -> d_expires s <= d_now s -> d_st s' = REBINDING /\ d_expires s' = d_expires s /\ conf s' = conf s) /\
  (conf s' = conf s -> d_st s' = REQUEST_SENT \/ d_st s' = RENEWING \/ d_st s' = REBINDING \/ d_st s' = BOUND \/ d_st s' = DAD ->
     d_server s' = d_server s /\ d_expires s' = d_expires s).
Proof.
  intros He Hh Hnid HL HC Hn Hoff HB. cbv zeta.
  destruct HC as (HC0 & HC1 & HC2).
  unfold timer_cb.
  set (s0 := up_timer s 0 (d_heap s) (d_nid s)).
  assert (Hcl : clear s0) by (unfold clear, s0; ds; auto).
  assert (HT0 : TInv s0) by (destruct Hcl as (? & ? & ?); unfold TInv; auto).
  assert (HL0 : LInv s0) by (unfold LInv, s0 in *; ds; assumption).
  change (d_st s) with (d_st s0) in *. change (d_renew s) with (d_renew s0) in *. change (d_expires s) with (d_expires s0) in *.
  change (d_now s) with (d_now s0) in *. change (d_count s) with (d_count s0) in *. change (d_probes s) with (d_probes s0) in *.
  change (conf s) with (conf s0). change (d_mac s) with (d_mac s0). change (d_server s) with (d_server s0).
  clearbody s0. clear s Hh Hnid HL. rename s0 into s.
  destruct (d_st s) eqn:Est; [congruence|..].
  - (* DISCOVER_SENT *)
    unfold LInv in HL0. rewrite Est in HL0. destruct (d_count s <? 3) eqn:E3.
    + destruct (send_discover e s) as [[s1 o] ok] eqn:E. cbn [fst].
      destruct (send_discover_inv e s s1 o ok He Hcl Hn ltac:(lia) ltac:(lia) HL0 E) as (A1 & A2 & A3 & A4 & A5 & A6 & A7 & A8 & A9).
      destruct (inc_keep s1 ok) as (K1 & K2 & K3 & K4 & K5 & K6 & K7 & K8 & K9 & K10 & K11 & K12 & K13).
      split; [apply inc_inv; [assumption|intros; lia]|]. split; [congruence|]. split; [congruence|].
      split; [unfold live; rewrite K2; auto|]. split; [left; unfold conf in *; congruence|].
      split; [nost|]. split; [discriminate|]. intros _ HH. rewrite K1, A2 in HH. destruct HH as [HH|[HH|[HH|[HH|HH]]]]; discriminate.
    + cbn [fst]. split.
      { destruct Hcl as (X1 & X2 & X3). unfold DInv, TInv, LInv, CInv, tbound. ds. split; [auto|]. split; [assumption|].
        split; [|assumption]. split; [assumption|]. split; [intros _; apply HC1; tauto|assumption]. }
      split; [reflexivity|]. split; [reflexivity|]. split; [intros _ HH; exfalso; apply HH; reflexivity|].
      split; [left; reflexivity|]. split; [nost|]. split; [discriminate|].
      intros _ HH. ds. destruct HH as [HH|[HH|[HH|[HH|HH]]]]; discriminate.
  - (* REQUEST_SENT *)
    destruct (d_count s <? 3) eqn:E3.
    + destruct (send_request e s) as [[s1 o] ok] eqn:E. cbn [fst].
      destruct (send_request_inv e s s1 o ok He Hcl Hn ltac:(lia) ltac:(lia) HL0 ltac:(left; split; [assumption|lia]) E) as (tid & h & n & A1 & A2 & A3).
      destruct (inc_keep s1 ok) as (K1 & K2 & K3 & K4 & K5 & K6 & K7 & K8 & K9 & K10 & K11 & K12 & K13).
      assert (Hs1 : d_st s1 = REQUEST_SENT /\ d_count s1 = d_count s) by (subst s1; ds; auto).
      split; [apply inc_inv; [assumption|intros; lia]|]. rewrite A1 in *. unfold conf, live in *. rewrite ?K1, ?K2, ?K3, ?K4, ?K5, ?K6, ?K11, ?K13, ?K9. ds.
      split; [reflexivity|]. split; [reflexivity|]. split; [auto|]. split; [left; reflexivity|].
      split; [nost|]. split; [discriminate|]. auto.
    + cbn [fst]. split.
      { destruct Hcl as (X1 & X2 & X3). unfold DInv, TInv, LInv, CInv, tbound, deconfigure. ds. split; [auto|]. split; [reflexivity|].
        split; [|assumption]. split; [assumption|]. split; [intros _; apply HC1; tauto|assumption]. }
      split; [reflexivity|]. split; [reflexivity|]. split; [intros _ HH; exfalso; apply HH; reflexivity|].
      split; [right; reflexivity|]. split; [nost|]. split; [discriminate|].
      intros _ HH. unfold deconfigure in HH. ds. destruct HH as [HH|[HH|[HH|[HH|HH]]]]; discriminate.
  - (* BOUND *)
    pose proof HL0 as HL1. unfold LInv in HL1. rewrite Est in HL1.
    destruct (negb (d_expires s =? 0) && (d_expires s <=? d_now s)) eqn:EX.
    + pose proof (restart_inv e s He HT0 Hn ltac:(lia)) as (A1 & A2 & A3 & A4 & A5 & A6 & A7 & A8).
      split; [assumption|]. split; [assumption|]. split; [assumption|]. split; [unfold live; auto|].
      split; [right; unfold conf; assumption|]. split; [intros _ _; split; [unfold conf; assumption|assumption]|].
      split; [discriminate|]. rewrite A2. intros _ HH. destruct HH as [HH|[HH|[HH|[HH|HH]]]]; discriminate.
    + specialize (HB eq_refl). replace (negb (d_renew s =? 0) && (d_now s <? d_renew s)) with false by lia.
      set (s1 := up_xid (up_count (up_start (up_st s RENEWING) (d_now s)) 0) (e_xid e)).
      destruct (send_request e s1) as [[s2 o] ok] eqn:E. cbn [fst].
      destruct (send_request_inv e s1 s2 o ok He) as (tid & h & n & A1 & A2 & A3); try exact E; try (unfold s1; ds; lia).
      { unfold clear, s1 in *; ds; assumption. }
      { unfold LInv, s1 in *; ds. assumption. }
      { right; left; reflexivity. }
      destruct (inc_keep s2 ok) as (K1 & K2 & K3 & K4 & K5 & K6 & K7 & K8 & K9 & K10 & K11 & K12 & K13).
      assert (Hs2 : d_st s2 = RENEWING) by (subst s2; reflexivity).
      split; [apply inc_inv; [assumption|rewrite Hs2; nost]|].
      rewrite A1 in *. unfold conf, live in *. rewrite ?K1, ?K2, ?K3, ?K4, ?K5, ?K6, ?K11, ?K13, ?K9. unfold s1. ds.
      split; [reflexivity|]. split; [reflexivity|]. split; [auto|]. split; [left; reflexivity|].
      split; [intros; exfalso; lia|]. split; [discriminate|]. auto.
  - (* RENEWING *)
    set (s1 := if negb (d_rebind s =? 0) && (d_rebind s <=? d_now s)
               then up_count (up_start (up_st s REBINDING) (d_now s)) 0 else s).
    assert (H1 : clear s1 /\ d_now s1 = d_now s /\ 0 <= d_count s1 /\ d_probes s1 = d_probes s /\ LInv s1 /\ conf s1 = conf s /\ d_mac s1 = d_mac s /\
       (d_st s1 = RENEWING \/ d_st s1 = REBINDING) /\ d_expires s1 = d_expires s /\ d_server s1 = d_server s /\
       (d_expires s <= d_now s -> d_st s1 = REBINDING)).
    { unfold LInv in HL0. rewrite Est in HL0. unfold s1.
      destruct (negb (d_rebind s =? 0) && (d_rebind s <=? d_now s)) eqn:ER.
      - unfold clear, LInv, conf in *. ds. repeat split; try assumption; try lia; try tauto. 
      - rewrite Est. repeat split; try assumption; try lia; try tauto; unfold LInv; rewrite ?Est; try tauto.
        all: try apply Hcl. }
    destruct H1 as (Hcl1 & Hn1 & Hc1 & Hp1 & HL1 & Hcf & Hmac & Hst1 & Hex & Hsv & HREB). clearbody s1.
    destruct (send_request e s1) as [[s2 o] ok] eqn:E. cbn [fst].
    destruct (send_request_inv e s1 s2 o ok He Hcl1 ltac:(lia) ltac:(lia) ltac:(lia) HL1 ltac:(tauto) E) as (tid & h & n & A1 & A2 & A3).
    destruct (inc_keep s2 ok) as (K1 & K2 & K3 & K4 & K5 & K6 & K7 & K8 & K9 & K10 & K11 & K12 & K13).
    assert (Hs2 : d_st s2 = RENEWING \/ d_st s2 = REBINDING) by (subst s2; ds; tauto).
    split; [apply inc_inv; [assumption|intros [X|[X|X]]; destruct Hs2; congruence]|].
    rewrite A1 in *. unfold conf, live in *. rewrite ?K1, ?K2, ?K3, ?K4, ?K5, ?K6, ?K11, ?K13, ?K9. ds.
    split; [assumption|]. split; [assumption|]. split; [auto|]. split; [left; assumption|].
    split; [nost|]. split; [intros _ HH; split; [auto|]; split; [assumption|assumption]|]. auto.
  - (* REBINDING *)
    pose proof HL0 as HL1. unfold LInv in HL1. rewrite Est in HL1.
    destruct (negb (d_expires s =? 0) && (d_expires s <=? d_now s)) eqn:EX.
    + pose proof (restart_inv e s He HT0 Hn ltac:(lia)) as (A1 & A2 & A3 & A4 & A5 & A6 & A7 & A8).
      split; [assumption|]. split; [assumption|]. split; [assumption|]. split; [unfold live; auto|].
      split; [right; unfold conf; assumption|]. split; [intros _ _; split; [unfold conf; assumption|assumption]|].
      split; [discriminate|]. rewrite A2. intros _ HH. destruct HH as [HH|[HH|[HH|[HH|HH]]]]; discriminate.
    + destruct (send_request e s) as [[s1 o] ok] eqn:E. cbn [fst].
      destruct (send_request_inv e s s1 o ok He Hcl Hn ltac:(lia) ltac:(lia) HL0 ltac:(tauto) E) as (tid & h & n & A1 & A2 & A3).
      destruct (inc_keep s1 ok) as (K1 & K2 & K3 & K4 & K5 & K6 & K7 & K8 & K9 & K10 & K11 & K12 & K13).
      assert (Hs1 : d_st s1 = REBINDING) by (subst s1; ds; auto).
      split; [apply inc_inv; [assumption|rewrite Hs1; nost]|]. rewrite A1 in *. unfold conf, live in *. rewrite ?K1, ?K2, ?K3, ?K4, ?K5, ?K6, ?K11, ?K13, ?K9. ds.
      split; [reflexivity|]. split; [reflexivity|]. split; [auto|]. split; [left; reflexivity|].
      split; [intros; exfalso; lia|]. split; [discriminate|]. auto.
  - (* DAD *)
    pose proof HL0 as HL1. unfold LInv in HL1. rewrite Est in HL1.
    assert (FIN : forall s1 t, clear s1 -> LInv s1 -> CInv s1 -> d_now s1 = d_now s -> conf s1 = conf s -> d_mac s1 = d_mac s ->
       d_server s1 = d_server s -> d_expires s1 = d_expires s -> d_st s1 <> OFF ->
       tbound s1 (Z.max t (d_now s1 + 1)) ->
       let s' := schedule_at e s1 t in
       DInv s' /\ d_now s' = d_now s /\ d_mac s' = d_mac s /\ (e_room e = true -> live s') /\
       (conf s' = conf s \/ conf s' = (0, 0, 0)) /\
       (DAD = BOUND \/ DAD = REBINDING -> d_expires s <= d_now s -> conf s' = (0, 0, 0) /\ d_st s' = DISCOVER_SENT) /\
       (DAD = RENEWING -> d_expires s <= d_now s -> d_st s' = REBINDING /\ d_expires s' = d_expires s /\ conf s' = conf s) /\
       (conf s' = conf s -> d_st s' = REQUEST_SENT \/ d_st s' = RENEWING \/ d_st s' = REBINDING \/ d_st s' = BOUND \/ d_st s' = DAD ->
         d_server s' = d_server s /\ d_expires s' = d_expires s)).
    { intros s1 t F1 F2 F3 F4 F5 F6 F7 F8 F9 F10. cbv zeta.
      destruct (schedule_at_clear e s1 t F1) as (tid & h & n & E & Hnid & HT). rewrite E.
      unfold conf, live in *. ds.
      split.
      { unfold DInv, TInv, LInv, CInv, tbound in *. ds. split; [|split; [assumption|split; [assumption|lia]]].
        split; [lia|]. destruct HT as [(_ & -> & ->)|(_ & Ht & ->)]; [left; auto|].
        right. eexists. split; [reflexivity|]. split; [lia|]. split; [lia|]. assumption. }
      split; [assumption|]. split; [assumption|].
      split. { intros Hr _. destruct HT as [(HT & _)|(_ & _ & ->)]; congruence. }
      split; [left; assumption|]. split; [nost|]. split; [discriminate|]. auto. }
    destruct (d_probes s <? 3) eqn:EP.
    + destruct (send_probe e s) as [o ok]. destruct ok; cbn [fst].
      * apply FIN; try reflexivity.
        -- unfold clear in *; ds; assumption.
        -- unfold LInv in *; ds; rewrite Est in *; assumption.
        -- unfold CInv. ds. rewrite Est. split; [assumption|]. split; [nost|lia].
        -- ds. congruence.
        -- unfold tbound. ds. rewrite Est. lia.
      * apply FIN; try reflexivity; try assumption.
        -- unfold CInv. rewrite Est. split; [assumption|]. split; [nost|lia].
        -- congruence.
        -- unfold tbound. rewrite Est. lia.
    + cbn [fst]. apply FIN; try reflexivity.
      * unfold clear in *; ds; assumption.
      * unfold LInv in *; ds. assumption.
      * unfold CInv. ds. split; [assumption|]. split; [nost|lia].
      * ds. congruence.
      * unfold tbound. ds. lia.
Qed.
