(** C67: data lost in the network is recoverable. *)
From Verif Require Import Base ListUtil Seq SeqProps Queue QueueProofs HttpUrl TcpRecv TcpSack TcpRecvProofs TcpRecvInv TcpSend TcpSendProofs TcpSendProps TcpSendTimer TcpRecvProps TcpEnd TcpEndProps.

(** ** The back-off count after an ACK *)
Lemma mark_backoff t ack : t_backoff (fst (mark_unsacked t ack)) = t_backoff t.
Proof.
  unfold mark_unsacked. destruct (mark_scan (t_psack t) ack (t_q t)) as [m q1]. destruct (mark_scan [] ack (t_q t)) as [m2 q2].
  destruct m; [destruct (t_psack t); [|destruct m2]| |]; reflexivity.
Qed.
Lemma ack_post_backoff t ack d : t_backoff (fst (ack_post t ack d)) = t_backoff t.
Proof. unfold ack_post. destruct (t_fr t); [|reflexivity]. destruct (tcp_seq_lt ack (t_rp t)); [|reflexivity]. cbv zeta. cbn [fst]. rewrite mark_backoff. reflexivity. Qed.
Lemma advance_backoff t ack : t_backoff (fst (ack_advance t ack)) = 0.
Proof.
  assert (X : exists u delta m, ack_advance t ack = ack_post (upd_tm u 0 (t_rto u) m) ack delta).
  { exists (upd_dup (upd_una (upd_infl t (if t_infl t <=? u32 (ack - t_una t) then 0 else t_infl t - u32 (ack - t_una t))) ack) 0 false ack), (u32 (ack - t_una t)). eexists. reflexivity. }
  destruct X as (u & delta & m & ->). rewrite ack_post_backoff. reflexivity.
Qed.
Lemma dup_backoff t a i b : t_backoff (dup_ack t a i b) = t_backoff t.
Proof.
  unfold dup_ack. destruct (_ || _ || _ || b); [reflexivity|]. cbn zeta. set (t1 := upd_dup t _ _ _). set (early := match rev _ with [] => _ | _ => _ end).
  assert (X : exists t2 dn, (if early then let '(t', ok) := mark_unsacked t1 (a_ack a) in if ok then (upd_dup t' (t_dup t') true (a_ack a), true) else (t', false) else (t1, false)) = (t2, dn) /\ t_backoff t2 = t_backoff t).
  { destruct early; [|exists t1, false; split; reflexivity]. pose proof (mark_backoff t1 (a_ack a)) as M. destruct (mark_unsacked t1 (a_ack a)) as [t' ok]. cbn [fst] in M. destruct ok; eexists; eexists; (split; [reflexivity|exact M]). }
  destruct X as (t2 & dn & -> & X). destruct dn; [exact X|]. destruct (t_dup t2 <? 3); [exact X|]. destruct (t_dup t2 =? 3); [rewrite mark_backoff; exact X|exact X].
Qed.
Lemma grow_backoff t i b a : t_backoff (cwnd_grow t i b a) = t_backoff t.
Proof. unfold cwnd_grow. repeat (match goal with |- context [if ?c then _ else _] => destruct c end); reflexivity. Qed.
Lemma psack_backoff t b : t_backoff (process_sack t b) = t_backoff t.
Proof. unfold process_sack. destruct (negb (t_sackok t)); reflexivity. Qed.
Lemma tcp_ack_backoff t a : t_backoff (fst (tcp_ack t a)) = t_backoff t \/ t_backoff (fst (tcp_ack t a)) = 0.
Proof.
  unfold tcp_ack. cbv zeta. set (t0 := process_sack _ _). assert (B0 : t_backoff t0 = t_backoff t) by (unfold t0; rewrite psack_backoff; reflexivity).
  destruct (ack_scan (a_ack a) [] (t_q t0) 0) as [q1 n]. set (t1 := upd_q t0 q1). assert (B1 : t_backoff t1 = t_backoff t) by exact B0.
  set (adv := negb _ && _ && _).
  assert (X : exists t2 bl, (if adv then ack_advance t1 (a_ack a) else (t1, false)) = (t2, bl) /\ (t_backoff t2 = t_backoff t \/ t_backoff t2 = 0)).
  { destruct adv; [|exists t1, false; split; [reflexivity|left; exact B1]]. pose proof (advance_backoff t1 (a_ack a)) as A. destruct (ack_advance t1 (a_ack a)) as [t2 bl]. exists t2, bl. split; [reflexivity|right; exact A]. }
  destruct X as (t2 & bl & -> & X). destruct (0 <? n).
  - destruct (pop_acked (t_q t2) None) as [q2 [s|]]; [|exact X]. cbn [fst]. rewrite grow_backoff. destruct (if s_was s then None else _); exact X.
  - cbn [fst]. rewrite dup_backoff. exact X.
Qed.

(** ** The sender alone *)
(** A queued segment holding stream offset [u]. *)
Definition holds_offset (iss : Z) (w : list Z) (t : tcb) (u : Z) (s : seg) : Prop :=
  exists p, s_seq s = (iss + p) mod 4294967296 /\ head_off w t <= p <= u /\ u < p + zlen (s_pay s).
Lemma fl_tried x y : fl x y -> s_sent x = true \/ s_retr x = true -> s_sent y = true \/ s_retr y = true.
Proof. intros [-> |(_ & _ & ->)] H; [exact H|]. right. reflexivity. Qed.
Lemma drops_zlen a b : drops a b -> zlen (bytes b) <= zlen (bytes a).
Proof. intros (x & y & -> & E). rewrite bytes_app, zlen_app, (bytes_cores _ _ E). pose proof (zlen_nonneg (bytes x)). lia. Qed.
Lemma drops_length a b : drops a b -> (length b <= length a)%nat.
Proof. intros (x & y & -> & E). rewrite app_length. assert (length y = length b) by (transitivity (length (cores y)); [symmetry; apply map_length|rewrite E; apply map_length]). lia. Qed.

(** One segment at most holds a given offset. *)
Lemma holder_unique iss t w u s s' : is_u32 iss -> good iss t w u -> In s (t_q t) -> In s' (t_q t) -> holds_offset iss w t u s -> holds_offset iss w t u s' -> s = s'.
Proof.
  intros HU HG. destruct (good_inv _ _ _ _ HU HG) as (_ & HO & _ & HB). pose proof (reach_inv _ _ _ HU (good_reach _ _ _ _ HG)) as ((pre & W & L) & _ & _ & _ & SM). unfold head_off in *.
  assert (HP : zlen w - zlen (bytes (t_q t)) = zlen pre) by (rewrite W at 1; rewrite zlen_app; lia). unfold holds_offset, head_off. rewrite HP in *.
  assert (G : forall x, In x (t_q t) -> (exists p, s_seq x = (iss + p) mod 4294967296 /\ zlen pre <= p <= u /\ u < p + zlen (s_pay x)) ->
    exists j, nth_error (t_q t) j = Some x /\ zlen pre + zlen (bytes (firstn j (t_q t))) <= u < zlen pre + zlen (bytes (firstn j (t_q t))) + slen x).
  { intros x I0 (p & P1 & P2 & P3). apply In_nth_error in I0. destruct I0 as (j & EJ). exists j. split; [exact EJ|]. pose proof (lay_nth _ _ _ _ _ L EJ) as LN. change ((iss + p) mod 4294967296) with (sq iss p) in P1.
    pose proof (bytes_firstn_le (t_q t) j). pose proof (zlen_nonneg (bytes (firstn j (t_q t)))). rewrite LN in P1. apply Z.eqb_eq in P1. rewrite sq_eqz in P1 by (rewrite W, zlen_app in HO; lia). unfold slen. lia. }
  intros I1 I2 H1 H2. destruct (G s I1 H1) as (j & E1 & B1). destruct (G s' I2 H2) as (k & E2 & B2).
  destruct (Nat.lt_trichotomy j k) as [X|[X|X]].
  - pose proof (bytes_firstn_mono _ _ _ _ X E1). lia.
  - subst k. congruence.
  - pose proof (bytes_firstn_mono _ _ _ _ X E2). lia.
Qed.
Lemma holder_exists iss t w u : is_u32 iss -> good iss t w u -> u < zlen w -> exists e d k s, t_q t = e ++ d /\ shp e d /\ nth_error d k = Some s /\ holds_offset iss w t u s /\ s_pay s <> [].
Proof.
  intros HU HG HW. destruct (good_inv _ _ _ _ HU HG) as ((e & d & EQ & HE & HD) & HO & _ & HB). pose proof (reach_inv _ _ _ HU (good_reach _ _ _ _ HG)) as ((pre & W & L) & _ & _ & _ & SM).
  assert (BE : bytes e = []) by (clear - HE; induction HE as [|s e [P0 _] H IH]; [reflexivity|]; unfold bytes in *; cbn; rewrite P0; exact IH).
  assert (BD : bytes (t_q t) = bytes d) by (rewrite EQ, bytes_app, BE; reflexivity). rewrite EQ in L. apply lay_app in L. destruct L as [_ L]. rewrite BE in L. change (zlen (@nil Z)) with 0 in L. rewrite Z.add_0_r in L.
  unfold head_off in HO. assert (ZW : zlen w = zlen pre + zlen (bytes d)) by (rewrite W, zlen_app, BD; reflexivity). rewrite BD in HO.
  destruct (lay_find iss d (zlen pre) u L HD ltac:(lia)) as (k & s & p & F1 & F2 & F3 & F4). exists e, d, k, s. split; [exact EQ|]. split; [split; assumption|]. split; [exact F1|].
  pose proof (zlen_nonneg (bytes (firstn k d))). split; [exists p; split; [exact F3|]; unfold head_off, slen in *; rewrite BD; lia|]. rewrite Forall_forall in HD. apply HD. eapply nth_error_In. exact F1.
Qed.

(** If the first unacknowledged byte's segment was sent or is marked, then at most one
    timeout and one transmission opportunity put it on the wire again. *)
Lemma sender_recovers iss t w u : is_u32 iss -> good iss t w u -> u < zlen w -> t_st t = CEst -> t_backoff t < 15 -> (length (t_q t) <= 1000)%nat ->
  (forall s, In s (t_q t) -> holds_offset iss w t u s -> s_sent s = true \/ s_retr s = true) ->
  exists t1, (t1 = t \/ step t (ARto false false) = Some (t1, [])) /\ zlen (bytes (t_q t1)) <= zlen (bytes (t_q t)) /\
  exists t2 xs x p, step t1 (AFlush (repeat true SEND_BUDGET)) = Some (t2, map OTx xs) /\ zlen (bytes (t_q t2)) <= zlen (bytes (t_q t1)) /\ In x xs /\
    x_seq x = (iss + p) mod 4294967296 /\ 0 <= p /\ zlen w - zlen (bytes (t_q t)) <= p /\ p <= u < p + zlen (x_pay x) /\ at_offset w p (x_pay x) /\ exists s, In s (t_q t) /\ s_pay s = x_pay x.
Proof.
  intros HU HG HW HS HBK HLEN HT. destruct (holder_exists _ _ _ _ HU HG HW) as (e & d & k & s & EQ & HSH & EK & HH & NP).
  pose proof (reach_inv _ _ _ HU (good_reach _ _ _ _ HG)) as (QI & _ & _ & K & SM). destruct (reach_tmr _ _ _ (good_reach _ _ _ _ HG) HS) as [HC2 _].
  assert (IS : In s (t_q t)) by (rewrite EQ; apply in_or_app; right; eapply nth_error_In; exact EK).
  assert (FIN : forall t1, Forall2 fl (t_q t) (t_q t1) -> Forall segok (t_q t1) -> (exists seq pay, In (mkTx seq pay true) (snd (flush_tcp_tx t1 (repeat true SEND_BUDGET))) /\ exists p, seq = (iss + p) mod 4294967296 /\ p <= u < p + zlen pay /\ at_offset w p pay /\ 0 <= p /\ zlen w - zlen (bytes (t_q t)) <= p) ->
    exists t2 xs x p, step t1 (AFlush (repeat true SEND_BUDGET)) = Some (t2, map OTx xs) /\ zlen (bytes (t_q t2)) <= zlen (bytes (t_q t1)) /\ In x xs /\
    x_seq x = (iss + p) mod 4294967296 /\ 0 <= p /\ zlen w - zlen (bytes (t_q t)) <= p /\ p <= u < p + zlen (x_pay x) /\ at_offset w p (x_pay x) /\ exists s0, In s0 (t_q t) /\ s_pay s0 = x_pay x).
  { intros t1 F1 K1 (seq & pay & IX & p & P1 & P2 & P3 & P4 & P5). cbn [step]. destruct (flush_tcp_tx t1 (repeat true SEND_BUDGET)) as [t2 xs] eqn:EF. cbn [snd] in IX. exists t2, xs, (mkTx seq pay true), p. cbn [x_seq x_pay]. split; [reflexivity|].
    pose proof EF as EF0. unfold flush_tcp_tx in EF. destruct (resync_frame t1) as (R1 & _). destruct (flush_loop_spec _ _ _ _ _ _ EF ltac:(rewrite R1; exact K1)) as (G1 & _ & _ & _ & G5). rewrite R1 in *.
    split; [apply drops_zlen; exact G1|]. split; [exact IX|]. split; [exact P1|]. split; [exact P4|]. split; [exact P5|]. split; [exact P2|]. split; [exact P3|].
    rewrite Forall_forall in G5. destruct (G5 _ IX) as [X|(s0 & X & _)]; [|discriminate]. cbn [x_seq x_pay] in X. rewrite <- (fl_cores _ _ F1) in X. apply in_map_iff in X. destruct X as (s0 & X1 & X2). unfold core in X1. exists s0. split; [exact X2|congruence]. }
  assert (LOW : forall seq pay t1, Forall2 fl (t_q t) (t_q t1) -> Forall segok (t_q t1) -> In (mkTx seq pay true) (snd (flush_tcp_tx t1 (repeat true SEND_BUDGET))) -> forall p, seq = (iss + p) mod 4294967296 -> p <= u < p + zlen pay -> at_offset w p pay -> 0 <= p /\ zlen w - zlen (bytes (t_q t)) <= p).
  { intros seq pay t1 F1 K1 IX p P1 P2 P3. destruct (flush_tcp_tx t1 (repeat true SEND_BUDGET)) as [t2 xs] eqn:EF. cbn [snd] in IX. unfold flush_tcp_tx in EF. destruct (resync_frame t1) as (R1 & _). destruct (flush_loop_spec _ _ _ _ _ _ EF ltac:(rewrite R1; exact K1)) as (_ & _ & _ & _ & G5). rewrite R1 in G5.
    rewrite Forall_forall in G5. destruct (G5 _ IX) as [X|(s0 & X & _)]; [|discriminate]. cbn [x_seq x_pay] in X. rewrite <- (fl_cores _ _ F1) in X.
    split; [destruct P3 as (a & b & _ & Z0); pose proof (zlen_nonneg a); lia|].
    destruct (qinv_carries iss w (t_q t) seq pay QI X) as (o & O1 & O2 & O3 & O4). rewrite O3 in P1. apply Z.eqb_eq in P1. change ((iss + p) mod 4294967296) with (sq iss p) in P1.
    assert (SPAY : zlen pay <= 65535). { apply in_map_iff in X. destruct X as (s0 & X1 & X2). unfold core in X1. unfold small in SM. rewrite Forall_forall in SM. specialize (SM s0 X2). cbv beta in SM. unfold slen in SM. assert (s_pay s0 = pay) by congruence. congruence. }
    destruct (good_inv _ _ _ _ HU HG) as (_ & HO & _ & HB). unfold head_off in HO. pose proof (at_offset_len _ _ _ O4). rewrite sq_eqz in P1; [lia|lia]. }
  destruct (s_sent s) eqn:SS.
  - assert (HSENT : forall s0, In s0 (t_q t) -> (exists p, s_seq s0 = (iss + p) mod 4294967296 /\ head_off w t <= p <= u /\ u < p + zlen (s_pay s0)) -> s_sent s0 = true).
    { intros s0 I0 H0. rewrite (holder_unique iss t w u s0 s HU HG I0 IS H0 HH). exact SS. }
    pose proof (tcp_timeout_retransmits_first_unacked iss t w u false false HU HG HW (or_introl HS) ltac:(unfold ctrl_needs; rewrite HS; reflexivity) HC2 HLEN HSENT) as TO.
    destruct (tcp_rto_cb t false false) as [t1|] eqn:ER; [|lia]. exists t1. split; [right; cbn [step]; rewrite ER; reflexivity|].
    destruct (rto_cb_spec _ _ _ _ ER K) as ((A & B & C) & [(q & D & F)|(X & _ & _)]); [|discriminate]. rewrite <- F in D. split; [rewrite <- (bytes_cores _ _ (fl_cores _ _ D)); lia|].
    apply FIN; [exact D|exact C|]. destruct TO as (seq & pay & p & T1 & T2 & T3 & T4). exists seq, pay. split; [exact T1|]. exists p. split; [exact T2|]. split; [exact T3|]. split; [exact T4|]. eapply LOW; eassumption.
  - assert (SR : s_retr s = true) by (destruct (HT s IS HH) as [X|X]; [congruence|exact X]). exists t. split; [left; reflexivity|]. split; [lia|]. apply FIN; [apply fl_refl|exact K|].
    assert (ITX : In (mkTx (s_seq s) (s_pay s) true) (snd (flush_tcp_tx t (repeat true SEND_BUDGET)))).
    { destruct (flush_tcp_tx t (repeat true SEND_BUDGET)) as [t2 xs] eqn:EF. cbn [snd]. unfold flush_tcp_tx in EF. destruct (resync_frame t) as (R1 & _). eapply (flush_retransmits _ _ _ _ _ _ e d k s EF); [rewrite R1; exact EQ|exact HSH|left; reflexivity|exact EK|exact SR|exact SS| | |].
      - apply Forall_forall. intros b IB. apply repeat_spec in IB. exact IB.
      - rewrite repeat_length. lia.
      - assert (LK : (k < length d)%nat) by (apply nth_error_Some; congruence). assert (LT : length (t_q t) = (length e + length d)%nat) by (rewrite EQ; apply app_length).
        assert (SB : SEND_BUDGET = 2050%nat) by (vm_compute; reflexivity). split; [lia|]. rewrite SB. lia. }
    destruct HH as (p & P1 & P2 & P3). exists (s_seq s), (s_pay s). split; [exact ITX|]. exists p. split; [exact P1|]. split; [lia|].
    assert (AO : at_offset w p (s_pay s)).
    { destruct (qinv_carries iss w (t_q t) (s_seq s) (s_pay s) QI ltac:(apply in_map_iff; exists s; split; [reflexivity|exact IS])) as (o & O1 & O2 & O3 & O4). rewrite O3 in P1. apply Z.eqb_eq in P1. change ((iss + p) mod 4294967296) with (sq iss p) in P1.
      destruct (good_inv _ _ _ _ HU HG) as (_ & HO & _ & HB). unfold head_off in *. pose proof (at_offset_len _ _ _ O4). pose proof (zlen_nonneg (s_pay s)). rewrite sq_eqz in P1 by lia. apply Z.eqb_eq in P1. subst o. exact O4. }
    split; [exact AO|]. eapply LOW; [apply fl_refl|exact K|exact ITX|exact P1|lia|exact AO].
Qed.

(** ** C67 *)
Inductive steps : sys -> sys -> Prop :=
| steps_refl : forall s, steps s s
| steps_cons : forall s s1 s', sstep true s s1 -> steps s1 s' -> steps s s'.
Definition received (s : sys) : list Z := y_out s ++ readable (y_rcv s).

Lemma sstep_sreach true irs cap s s' : sreach true irs cap s -> sstep true s s' -> sreach true irs cap s'.
Proof. intros. eapply sr_step; eassumption. Qed.

Theorem tcp_lost_data_recoverable : forall irs cap s, 0 < cap < 536870912 -> is_u32 irs -> sreach true irs cap s ->
  let t := y_snd s in let r := zlen (received s) in
  r < zlen (y_w s) ->                                   (* a byte accepted by send() has not arrived *)
  t_st t = CEst -> t_backoff t < 15 ->                  (* established, not given up *)
  (length (t_q t) <= 1000)%nat -> Forall (fun q => zlen (s_pay q) <= cap) (t_q t) ->
  (* the segment holding that byte is not waiting for its first transmission *)
  (forall q p, In q (t_q t) -> s_seq q = (irs + 1 + p) mod 4294967296 -> zlen (y_w s) - zlen (concat (map s_pay (t_q t))) <= p <= r -> r < p + zlen (s_pay q) -> s_sent q = true \/ s_retr q = true) ->
  exists s', steps s s' /\ y_w s' = y_w s /\ zlen (received s) < zlen (received s').
Proof.
  intros irs cap [t w sg ks st out] HC HI HR. cbn [y_snd y_w y_segs y_acks y_rcv y_out]. intros HM HST HBK HLEN HCAP HTR. fold (bytes (t_q t)) in HTR.
  destruct (sreach_inv _ _ _ HC HI HR) as (u & l & HG & HQ & HV & HB & HU & HS & HK). cbn [y_snd y_w y_segs y_acks y_rcv y_out] in *.
  set (iss := u32 (irs + 1)) in *. assert (HIS : is_u32 iss) by apply u32_is. unfold received in *. cbn [y_out y_rcv] in *. rewrite (readable_inv _ _ _ _ _ _ _ _ HC HV) in *. rewrite zlen_app in *.
  (* the application reads everything *)
  pose proof HV as [(_ & _ & _ & _ & RL) _ _ _ _ _ _].
  destruct (pop_ok (irs + 1) (at_w w) (zlen w) cap st (zlen out) l false 0 4294967295 HC HV ltac:(lia)) as (st1 & bs & acks & l1 & E1 & P1 & P2 & P3 & P4 & P5 & _).
  assert (l1 = []). { rewrite P1, zlen_app in P2. pose proof (zlen_nonneg l1). pose proof (zlen_nonneg bs). rewrite P1, zlen_app in RL. apply zlen_zero. lia. } subst l1. rewrite app_nil_r in P1. subst bs.
  set (s1 := mkSys t w sg (ks ++ map (fun a => mkK (zlen w) (fst a)) acks) st1 (out ++ l)).
  assert (T1 : sstep true (mkSys t w sg ks st out) s1) by (eapply s_read; [|exact E1]; lia).
  (* the receiver acknowledges *)
  set (k := mkK (zlen w) (fst (ack_of st1))). set (s2 := mkSys t w sg ((ks ++ map (fun a => mkK (zlen w) (fst a)) acks) ++ [k]) st1 (out ++ l)).
  assert (T2 : sstep true s1 s2) by apply s_ack_now.
  (* the ACK arrives *)
  set (a := mkAck (k_no k) 0 0 [] None). destruct (tcp_ack t a) as [t1 smp] eqn:EA.
  assert (ST3 : step t (AAck a) = Some (t1, match smp with Some r => [OSample r] | None => [] end)) by (cbn [step]; rewrite EA; reflexivity).
  set (s3 := mkSys t1 w sg ((ks ++ map (fun a => mkK (zlen w) (fst a)) acks) ++ [k]) st1 (out ++ l)).
  assert (T3 : sstep true s2 s3) by (eapply s_ack with (k := k) (a := a); [apply in_or_app; right; left; reflexivity|cbn [k_born k]; unfold LIFE; lia|reflexivity|exact ST3]).
  set (r := zlen out + zlen l) in *.
  assert (KN : k_no k = (iss + r) mod 4294967296).
  { cbn [k_no k]. destruct P3 as [_ _ A _ _ _ _]. unfold ack_of. cbn [fst]. rewrite A. change ((iss + r) mod 4294967296) with (sq iss r). unfold iss. rewrite sq_norm. f_equal. unfold rcvd, r. change (zlen (@nil Z)) with 0. lia. }
  assert (HG1 : good iss t1 w r).
  { replace r with (Z.max u r) by lia. eapply good_ack with (k := a); [exact HG|exact KN| |exact ST3]. lia. }
  destruct (good_inv _ _ _ _ HIS HG) as (_ & HO & _ & _). unfold head_off in HO.
  pose proof (reach_inv _ _ _ HIS (good_reach _ _ _ _ HG)) as (_ & _ & _ & K & SM).
  destruct (tcp_ack_spec _ _ _ _ EA K) as (rm & rest & Q1 & Q2 & _ & _ & Q5 & _ & _).
  assert (D1 : drops (t_q t) (t_q t1)) by (exists rm, rest; split; [exact Q1|apply fl_cores; exact Q2]).
  assert (BK1 : t_backoff t1 < 15) by (pose proof (tcp_ack_backoff t a) as X; rewrite EA in X; cbn [fst] in X; lia).
  assert (ST1 : t_st t1 = CEst) by (unfold frame in Q5; congruence).
  assert (CAP1 : Forall (fun q => zlen (s_pay q) <= cap) (t_q t1)).
  { rewrite Forall_forall in *. intros y Iy. destruct (Forall2_in_r fl _ _ y Q2 Iy) as (x & Ix & F). assert (s_pay y = s_pay x) as -> by (destruct F as [-> |(_ & _ & ->)]; reflexivity). apply HCAP. rewrite Q1. apply in_or_app. right. exact Ix. }
  destruct (sender_recovers iss t1 w r HIS HG1 HM ST1 BK1 ltac:(pose proof (drops_length _ _ D1); lia)) as (t2 & R0 & RQ & t3 & xs & x & p & R1 & R2 & R3 & R4 & R5 & R6 & R7 & R8 & (sx & R9 & R10)).
  { intros y Iy (p & Y1 & Y2 & Y3). destruct (Forall2_in_r fl _ _ y Q2 Iy) as (x & Ix & F). apply (fl_tried x y F). assert (EP : s_pay y = s_pay x /\ s_seq y = s_seq x) by (destruct F as [-> |(_ & _ & ->)]; split; reflexivity). destruct EP as [EP1 EP2].
    apply (HTR x p); [rewrite Q1; apply in_or_app; right; exact Ix|rewrite <- EP2, Y1; change ((iss + p) mod 4294967296) with (sq iss p); unfold iss; apply sq_norm| |rewrite <- EP1; exact Y3].
    pose proof (drops_zlen _ _ D1). unfold head_off in Y2. lia. }
  assert (QM : zlen (bytes (t_q t2)) <= QMAX) by (pose proof (drops_zlen _ _ D1); lia).
  set (s4 := mkSys t2 w sg ((ks ++ map (fun a => mkK (zlen w) (fst a)) acks) ++ [k]) st1 (out ++ l)).
  assert (T4 : steps s3 s4).
  { destruct R0 as [-> |R0]; [apply steps_refl|]. eapply steps_cons; [|apply steps_refl]. pose proof (s_snd true t1 w sg ((ks ++ map (fun a => mkK (zlen w) (fst a)) acks) ++ [k]) st1 (out ++ l) (ARto false false) t2 [] ltac:(split; [exact I|]; split; [intros _; exact I|exact I]) R0 QM) as X.
    cbn [accepted frames flat_map] in X. rewrite !app_nil_r in X. exact X. }
  (* it transmits *)
  pose proof (s_snd true t2 w sg ((ks ++ map (fun a => mkK (zlen w) (fst a)) acks) ++ [k]) st1 (out ++ l) (AFlush (repeat true SEND_BUDGET)) t3 (map OTx xs) ltac:(split; [exact I|]; split; [intros _; exact I|exact I]) R1 ltac:(lia)) as T5.
  cbn [accepted] in T5. rewrite app_nil_r in T5. set (s5 := mkSys t3 w (sg ++ frames (zlen w) (map OTx xs)) ((ks ++ map (fun a => mkK (zlen w) (fst a)) acks) ++ [k]) st1 (out ++ l)) in *.
  (* and the segment arrives *)
  set (pk := mkW (zlen w) (x_seq x) (x_pay x)).
  assert (IPK : In pk (sg ++ frames (zlen w) (map OTx xs))) by (apply in_or_app; right; unfold frames; apply in_flat_map; exists (OTx x); split; [apply in_map; exact R3|left; reflexivity]).
  assert (LX : zlen (x_pay x) <= 65535) by (rewrite <- R10; pose proof (reach_inv _ _ _ HIS (good_reach _ _ _ _ HG1)) as (_ & _ & _ & _ & SM1); unfold small in SM1; rewrite Forall_forall in SM1; apply (SM1 sx R9)).
  assert (LXC : zlen (x_pay x) <= cap) by (rewrite <- R10; rewrite Forall_forall in CAP1; apply (CAP1 sx R9)).
  assert (ZO : zlen (out ++ l) = r) by (unfold r; apply zlen_app). rewrite <- ZO in P3.
  destruct (seg_ok (irs + 1) (at_w w) (zlen w) cap st1 (zlen (out ++ l)) [] false p (x_pay x) false HC) as (st6 & acks6 & l6 & f6 & E6 & S1 & (k6 & S2) & _ & _ & _ & S5 & _ & S6);
    [apply at_w_lt|exact P3|apply at_offset_bytes; assumption|discriminate|apply at_offset_len; exact R8|pose proof (drops_zlen _ _ D1); change (zlen (@nil Z)) with 0; unfold QMAX in *; lia|exact LX|].
  destruct (S6 eq_refl) as (S7 & _); [change (zlen (@nil Z)) with 0; lia|change (zlen (@nil Z)) with 0; lia|].
  set (s6 := mkSys t3 w (sg ++ frames (zlen w) (map OTx xs)) (((ks ++ map (fun a => mkK (zlen w) (fst a)) acks) ++ [k]) ++ map (fun a => mkK (zlen w) (fst a)) acks6) st6 (out ++ l)).
  assert (T6 : sstep true s5 s6).
  { eapply s_deliver; [exact IPK|cbn [pk w_born]; unfold LIFE; lia| |reflexivity]. cbn [pk w_seq w_pay]. rewrite R4. change ((iss + p) mod 4294967296) with (sq iss p). unfold iss. rewrite sq_norm. exact E6. }
  exists s6. split.
  - eapply steps_cons; [exact T1|]. eapply steps_cons; [exact T2|]. eapply steps_cons; [exact T3|].
    assert (TR : forall a b c, steps a b -> steps b c -> steps a c) by (intros x0 b c H; induction H; intros; [assumption|eapply steps_cons; eauto]).
    eapply TR; [exact T4|]. eapply steps_cons; [exact T5|]. eapply steps_cons; [exact T6|]. apply steps_refl.
  - split; [reflexivity|]. cbn [s6 y_out y_rcv]. assert (EF6 : f6 = false) by (destruct f6; [destruct (S5 eq_refl); discriminate|reflexivity]). subst f6.
    rewrite (readable_inv _ _ _ _ _ _ _ _ HC S1). rewrite zlen_app. lia.
Qed.
Print Assumptions tcp_lost_data_recoverable.

(** ** A concrete execution *)
(** Executable form of [sstep]; packets are chosen by index. *)
Inductive ev := ESnd (a : act) | EDeliver (i : nat) | EAckNow | ERead (len : Z) | EAck (i : nat) (win : Z).
Definition ev_ok (strict : bool) (t : tcb) (a : act) : bool := match a with AClose _ | AAck _ => false | ASend _ _ _ => gok t a | _ => negb strict || gok t a end.
Definition erun1 (strict : bool) (s : sys) (e : ev) : option sys :=
  let '(mkSys t w sg ks st out) := s in
  match e with
  | ESnd a => if ev_ok strict t a then match step t a with
      | Some (t', os) => if zlen (bytes (t_q t')) <=? QMAX then Some (mkSys t' (w ++ accepted a os) (sg ++ frames (zlen w) os) ks st out) else None
      | None => None end else None
  | EDeliver i => match nth_error sg i with
      | Some p => if zlen w - w_born p <=? LIFE then match seg_input st (w_seq p) (w_pay p) false with Some (st', acks) => Some (mkSys t w sg (ks ++ map (fun a => mkK (zlen w) (fst a)) acks) st' out) | None => None end else None
      | None => None end
  | EAckNow => Some (mkSys t w sg (ks ++ [mkK (zlen w) (fst (ack_of st))]) st out)
  | ERead len => if (0 <=? len) && (len <? 4294967296) then match sock_recv st 0 len with Some (st', (bs, acks)) => Some (mkSys t w sg (ks ++ map (fun a => mkK (zlen w) (fst a)) acks) st' (out ++ bs)) | None => None end else None
  | EAck i win => match nth_error ks i with
      | Some k => if zlen w - k_born k <=? LIFE then match step t (AAck (mkAck (k_no k) win 0 [] None)) with Some (t', _) => Some (mkSys t' w sg ks st out) | None => None end else None
      | None => None end
  end.
Fixpoint erun (strict : bool) (s : sys) (l : list ev) : option sys := match l with [] => Some s | e :: r => match erun1 strict s e with Some s1 => erun strict s1 r | None => None end end.
Lemma erun1_step strict s e s' : erun1 strict s e = Some s' -> sstep strict s s'.
Proof.
  destruct s as [t w sg ks st out]. destruct e as [a|i| |len|i win]; cbn [erun1]; intros E.
  - destruct (ev_ok strict t a) eqn:OK; [|discriminate]. destruct (step t a) as [[t' os]|] eqn:ES; [|discriminate]. destruct (Z.leb_spec (zlen (bytes (t_q t'))) QMAX); [|discriminate]. injection E as <-. apply s_snd; try assumption.
    assert (NI : is_nil (bytes (t_q t)) = true -> bytes (t_q t) = []) by (destruct (bytes (t_q t)); [reflexivity|discriminate]).
    unfold sender_event, ev_ok, gok in *. destruct a; try discriminate; (split; [first [exact I|cbn [ok_act]; lia]|split; [intros ->|exact I]]); try exact I; destruct room; cbn [orderly]; try exact I; apply NI; exact OK.
  - destruct (nth_error sg i) as [p|] eqn:EN; [|discriminate]. destruct (Z.leb_spec (zlen w - w_born p) LIFE); [|discriminate]. destruct (seg_input st (w_seq p) (w_pay p) false) as [[st' acks]|] eqn:ES; [|discriminate]. injection E as <-.
    eapply s_deliver; [eapply nth_error_In; exact EN|assumption|exact ES|reflexivity].
  - injection E as <-. apply s_ack_now.
  - destruct (Z.leb_spec 0 len), (Z.ltb_spec len 4294967296); cbn [andb] in E; try discriminate. destruct (sock_recv st 0 len) as [[st' [bs acks]]|] eqn:ES; [|discriminate]. injection E as <-. eapply s_read; [|exact ES]. lia.
  - destruct (nth_error ks i) as [k|] eqn:EN; [|discriminate]. destruct (Z.leb_spec (zlen w - k_born k) LIFE); [|discriminate]. destruct (step t (AAck (mkAck (k_no k) win 0 [] None))) as [[t' os]|] eqn:ES; [|discriminate]. injection E as <-.
    eapply s_ack; [eapply nth_error_In; exact EN|assumption| |exact ES]. reflexivity.
Qed.
Lemma erun_reach strict irs cap : forall l s s', sreach strict irs cap s -> erun strict s l = Some s' -> sreach strict irs cap s'.
Proof.
  induction l as [|e l IH]; intros s s' H E; cbn [erun] in E; [congruence|]. destruct (erun1 strict s e) as [s1|] eqn:E1; [|discriminate]. eapply IH; [|exact E]. eapply sr_step; [exact H|eapply erun1_step; exact E1].
Qed.
Definition sys0 : sys := mkSys (mk0 4000 4000) [] [] [] (rx_init (repeat 0 (Z.to_nat 4001)) 4001 999) [].
Lemma sys0_reach strict : sreach strict 999 4000 sys0.
Proof. apply (sr_init strict 999 4000 (mk0 4000 4000) (repeat 0 (Z.to_nat 4001))); [exact (mk0_fresh 4000 4000)|vm_compute; reflexivity]. Qed.
(** 1500 bytes are sent as two segments; the first is lost, the second arrives (and is kept
    out of order); three duplicate deliveries and a read change nothing. *)
Definition loss : list ev := [ESnd (ASend (data (Z.to_nat 1500) 7) 1000 [5000; 4000]); ESnd (AFlush [true; true]); EDeliver 1; EAck 0 4000; EDeliver 1; ERead 500; EDeliver 1].
Definition gets (x : option sys) : sys := match x with Some s => s | None => sys0 end.
Lemma gets_reach strict l : match erun strict sys0 l with Some _ => true | None => false end = true -> sreach strict 999 4000 (gets (erun strict sys0 l)).
Proof. intros H. destruct (erun strict sys0 l) as [s|] eqn:E; [|discriminate]. eapply erun_reach; [apply sys0_reach|exact E]. Qed.
Example loss_case : exists s, sreach true 999 4000 s /\ zlen (y_w s) = 1500 /\ received s = [] /\ t_st (y_snd s) = CEst /\ t_backoff (y_snd s) < 15 /\
  (length (t_q (y_snd s)) <= 1000)%nat /\ Forall (fun q => zlen (s_pay q) <= 4000) (t_q (y_snd s)) /\ Forall (fun q => s_sent q = true) (t_q (y_snd s)) /\ length (y_acks s) = 3%nat.
Proof.
  exists (gets (erun true sys0 loss)). split; [apply gets_reach; vm_compute; reflexivity|]. split; [vm_compute; reflexivity|]. split; [vm_compute; reflexivity|]. split; [vm_compute; reflexivity|]. split; [vm_compute; reflexivity|].
  split; [vm_compute; lia|]. split; [vm_compute; repeat constructor; discriminate|]. split; [vm_compute; repeat constructor|vm_compute; reflexivity].
Qed.
(** ... and then the timeout repairs the loss: everything is read, everything acknowledged. *)
Example repair_case : exists s, sreach true 999 4000 s /\ y_out s = y_w s /\ zlen (y_w s) = 1500 /\ t_q (y_snd s) = [].
Proof.
  set (l := loss ++ [ESnd (ATick 9000); ESnd (ARto false false); ESnd (AFlush [true; true]); EDeliver 2; ERead 2000; EAckNow; EAck 4 4000]).
  exists (gets (erun true sys0 l)). split; [apply gets_reach; vm_compute; reflexivity|]. split; [vm_compute; reflexivity|]. split; vm_compute; reflexivity.
Qed.

(** The code: 100 bytes are accepted and transmitted (and lost); a bare ACK is queued behind
    them and transmitted; the 100 bytes are neither at the receiver nor in the sender's
    queue, and were never acknowledged. *)
Theorem tcp_end_to_end_reliable_refuted : exists irs cap s, 0 < cap < 536870912 /\ is_u32 irs /\ sreach false irs cap s /\
  zlen (y_w s) = 100 /\ y_out s ++ readable (y_rcv s) = [] /\ y_acks s = [] /\ concat (map s_pay (t_q (y_snd s))) = [].
Proof.
  set (l := [ESnd (ASend (data (Z.to_nat 100) 7) 1000 [5000]); ESnd (AFlush [true]); ESnd (AEmpty true); ESnd (AFlush [true])]).
  exists 999, 4000, (gets (erun false sys0 l)). split; [lia|]. split; [unfold is_u32; lia|]. split; [apply gets_reach; vm_compute; reflexivity|]. split; [vm_compute; reflexivity|]. split; [vm_compute; reflexivity|]. split; vm_compute; reflexivity.
Qed.
Print Assumptions tcp_end_to_end_reliable_refuted.
