(** C66: end-to-end TCP.  C67: loss is recoverable. *)
From Verif Require Import Base ListUtil Seq SeqProps Queue QueueProofs HttpUrl TcpRecv TcpSack TcpRecvProofs TcpRecvInv TcpSend TcpSendProofs TcpSendProps TcpRecvProps TcpEnd.

Definition at_w (w : list Z) (y b : Z) : Prop := 0 <= y /\ nth_error w (Z.to_nat y) = Some b.
Lemma sq_norm irs o : sq (u32 (irs + 1)) o = sq (irs + 1) o.
Proof. unfold sq, u32. apply Zplus_mod_idemp_l. Qed.
Lemma at_w_mono w v y b : at_w w y b -> at_w (w ++ v) y b.
Proof. intros (A & B). split; [exact A|]. rewrite nth_error_app1; [exact B|]. apply nth_error_Some. congruence. Qed.
Lemma at_w_lt w y b : at_w w y b -> y < zlen w.
Proof. intros (A & B). assert (N : nth_error w (Z.to_nat y) <> None) by congruence. apply nth_error_Some in N. unfold zlen. lia. Qed.
Lemma seg_bytes_mono (P Q : Z -> Z -> Prop) x l : (forall y b, P y b -> Q y b) -> seg_bytes P x l -> seg_bytes Q x l.
Proof. intros H A i b E. apply H, A, E. Qed.
Lemma Inv_mono isn (P Q : Z -> Z -> Prop) T T' cap st d l : (forall y b, P y b -> Q y b) -> Inv isn P T cap st d l false -> Inv isn Q T' cap st d l false.
Proof.
  intros H [(RQ & RS & RB & RP & RL) D A L O SK F]. constructor; try assumption; [| |discriminate].
  - split; [exact RQ|]. split; [exact RS|]. split; [exact RB|]. split; [|exact RL]. eapply seg_bytes_mono; eassumption.
  - eapply Forall_impl; [|exact O]. intros s (S1 & S2). split; [exact S1|]. intros U. destruct (S2 U) as (y & Y1 & Y2 & Y3 & Y4). exists y. split; [exact Y1|]. split; [exact Y2|]. split; [exact Y3|].
    intros i Hi. destruct (Y4 i Hi) as (b & B1 & B2). exists b. split; [exact B1|]. apply H. exact B2.
Qed.
Lemma at_offset_bytes w o p : 0 <= o -> at_offset w o p -> seg_bytes (at_w w) o p.
Proof.
  intros HO (a & b & -> & E) i c EN. split; [lia|]. assert (i < length p)%nat by (apply nth_error_Some; congruence).
  rewrite nth_error_app2 by (unfold zlen in E; lia). rewrite nth_error_app1 by (unfold zlen in E; lia). rewrite <- EN. f_equal. unfold zlen in E. lia.
Qed.
Lemma at_offset_mono w v o p : at_offset w o p -> at_offset (w ++ v) o p.
Proof. intros (a & b & -> & E). exists a, (b ++ v). split; [rewrite <- !app_assoc; reflexivity|exact E]. Qed.
Lemma at_offset_len w o p : at_offset w o p -> o + zlen p <= zlen w.
Proof. intros (a & b & -> & E). rewrite !zlen_app. pose proof (zlen_nonneg b). lia. Qed.
Lemma prefix_of w l : seg_bytes (at_w w) 0 l -> exists rest, w = l ++ rest.
Proof.
  intros SB. exists (skipn (length l) w). rewrite <- (firstn_skipn (length l) w) at 1. f_equal. apply nth_error_ext. intros i.
  destruct (Nat.lt_ge_cases i (length l)) as [LT|GE].
  - rewrite nth_error_firstn_lt by exact LT. destruct (nth_error l i) as [b|] eqn:EN; [|apply nth_error_None in EN; lia].
    destruct (SB i b EN) as (_ & E). rewrite <- E. f_equal. lia.
  - rewrite (proj2 (nth_error_None l i)) by exact GE. apply nth_error_None. rewrite firstn_length. lia.
Qed.

(** ** The invariant *)
Definition seg_inv (iss : Z) (w : list Z) (p : wseg) : Prop :=
  exists o, 0 <= o /\ w_seq p = sq iss o /\ at_offset w o (w_pay p) /\ w_born p - QMAX <= o /\ w_born p <= zlen w /\ zlen (w_pay p) <= 65535.
Definition ack_inv (iss : Z) (w : list Z) (r : Z) (k : wack) : Prop :=
  exists m, k_no k = sq iss m /\ k_born k - QMAX <= m <= r /\ k_born k <= zlen w.
Definition sys_inv (irs cap : Z) (s : sys) : Prop := exists u l,
  good (u32 (irs + 1)) (y_snd s) (y_w s) u /\ zlen (bytes (t_q (y_snd s))) <= QMAX /\
  Inv (irs + 1) (at_w (y_w s)) (zlen (y_w s)) cap (y_rcv s) (zlen (y_out s)) l false /\ seg_bytes (at_w (y_w s)) 0 (y_out s ++ l) /\
  u <= zlen (y_out s) + zlen l <= zlen (y_w s) /\
  Forall (seg_inv (u32 (irs + 1)) (y_w s)) (y_segs s) /\ Forall (ack_inv (u32 (irs + 1)) (y_w s) (zlen (y_out s) + zlen l)) (y_acks s).

Lemma seg_inv_mono iss w v p : seg_inv iss w p -> seg_inv iss (w ++ v) p.
Proof. intros (o & A & B & C & D & E & F). exists o. rewrite zlen_app. pose proof (zlen_nonneg v). split; [exact A|]. split; [exact B|]. split; [apply at_offset_mono; exact C|]. split; [exact D|]. split; [lia|exact F]. Qed.
Lemma ack_inv_mono iss w v r r' k : r <= r' -> ack_inv iss w r k -> ack_inv iss (w ++ v) r' k.
Proof. intros H (m & A & B & C). exists m. rewrite zlen_app. pose proof (zlen_nonneg v). split; [exact A|]. lia. Qed.
Lemma u32_is x : is_u32 (u32 x).
Proof. unfold is_u32, u32. apply Z.mod_pos_bound. lia. Qed.

(** What one sender step emits. *)
Lemma frames_inv iss t w a t' os : is_u32 iss -> reach iss t w -> zlen (bytes (t_q t)) <= QMAX -> ok_act a -> step t a = Some (t', os) -> Forall (seg_inv iss (w ++ accepted a os)) (frames (zlen w) os).
Proof.
  intros HU HR HQ HA E. pose proof (reach_inv _ _ _ HU HR) as (_ & _ & _ & K & S0).
  apply Forall_forall. intros p IP. apply seg_inv_mono. unfold frames in IP. apply in_flat_map in IP. destruct IP as (e & IE & IP).
  assert (EX : exists seq pay, p = mkW (zlen w) seq pay /\ (e = OTx (mkTx seq pay true) \/ e = OTx (mkTx seq pay false) \/ exists b, e = OProbe seq b /\ pay = [b]) /\ zlen pay <= 65535).
  { destruct e as [n|x|s b|r]; [destruct IP| | |destruct IP].
    - destruct IP as [<- |[]]. exists (x_seq x), (x_pay x). split; [reflexivity|]. split; [destruct x as [s0 p0 [|]]; [left|right; left]; reflexivity|].
      destruct a; cbn [step] in E.
      + destruct (tcp_sock_send t data cap rooms) as [t1 n]. assert (os = [OAccepted n]) by congruence. subst os. destruct IE as [X|[]]; discriminate.
      + assert (os = []) by congruence. subst. destruct IE.
      + destruct (tcp_ack t a) as [t1 r]. assert (os = match r with Some r => [OSample r] | None => [] end) by congruence. subst os. destruct r; [|destruct IE]. destruct IE as [X|[]]; discriminate.
      + assert (os = []) by congruence. subst. destruct IE.
      + destruct (tcp_rto_cb t room giveup); [|discriminate]. assert (os = []) by congruence. subst. destruct IE.
      + destruct (flush_tcp_tx t oks) as [t1 o] eqn:EF. assert (os = map OTx o) by congruence. subst os. unfold flush_tcp_tx in EF.
        destruct (resync_frame t) as (R1 & R2 & R3). destruct (flush_loop_spec _ _ _ _ _ _ EF ltac:(rewrite R1; exact K)) as (F1 & F2 & F3 & F4 & F5). rewrite R1 in *.
        apply in_map_iff in IE. destruct IE as (x' & XE & Ix). assert (x' = x) by congruence. subst x'. rewrite Forall_forall in F5. destruct (F5 x Ix) as [X|(s & X & _)]; [|discriminate].
        apply in_map_iff in X. destruct X as (sg & X & Isg). unfold core in X. unfold small in S0. rewrite Forall_forall in S0. specialize (S0 sg Isg). cbv beta in S0. unfold slen in S0. assert (x_pay x = s_pay sg) as -> by congruence. exact S0.
      + assert (os = match persist_probe t with Some (s, b) => [OProbe s b] | None => [] end) by congruence. subst os. destruct (persist_probe t) as [[s b]|]; [|destruct IE]. destruct IE as [X|[]]; discriminate.
      + assert (os = []) by congruence. subst. destruct IE.
      + assert (os = []) by congruence. subst. destruct IE.
      + assert (os = []) by congruence. subst. destruct IE.
    - destruct IP as [<- |[]]. exists s, [b]. split; [reflexivity|]. split; [right; right; exists b; split; reflexivity|]. cbv. discriminate. }
  destruct EX as (seq & pay & -> & HE & HL). destruct (tcp_sender_stream_integrity iss t w a t' os HU HR HA E e seq pay IE HE) as (o & O1 & O2 & O3 & O4).
  exists o. cbn [w_born w_seq w_pay]. split; [exact O1|]. split; [exact O3|]. split; [exact O4|]. split; [lia|]. split; [lia|exact HL].
Qed.

Lemma sys_inv_step irs cap s s' : 0 < cap < 536870912 -> is_u32 irs -> sys_inv irs cap s -> sstep true s s' -> sys_inv irs cap s'.
Proof.
  intros HC HI (u & l & HG & HQ & HR & HB & HU & HS & HK) H. set (iss := u32 (irs + 1)) in *. assert (HIS : is_u32 iss) by apply u32_is.
  pose proof (good_inv _ _ _ _ HIS HG) as (_ & HO & _ & _). unfold head_off in HO.
  assert (NW : forall st l', Inv (irs + 1) (at_w (y_w s)) (zlen (y_w s)) cap st (zlen (y_out s)) l' false -> zlen (y_out s) + zlen l <= zlen (y_out s) + zlen l' -> forall acks,
    Forall (ack_ok (irs + 1) (at_w (y_w s)) (rcvd (zlen (y_out s)) l false) (rcvd (zlen (y_out s)) l' false)) acks -> Forall (ack_inv iss (y_w s) (zlen (y_out s) + zlen l')) (map (fun a => mkK (zlen (y_w s)) (fst a)) acks)).
  { intros st l' _ _ acks F. apply Forall_forall. intros k IK. apply in_map_iff in IK. destruct IK as (a & <- & IA). rewrite Forall_forall in F. destruct (F a IA) as (m & bs & M & A1 & _). exists m. cbn [k_no k_born]. unfold iss. rewrite sq_norm.
    split; [exact A1|]. unfold rcvd in M. unfold QMAX in *. lia. }
  inversion H as [t w sg ks st out a t' os (OK & OR & NA) ES QB|t w sg ks st out p st' o acks IP LF ES EO|t w sg ks st out|t w sg ks st out shift len st' bs acks HL ES|t w sg ks st out k a t' os IK LF EA ES]; subst s s'; cbn [y_snd y_w y_segs y_acks y_rcv y_out] in *.
  - exists u, l. cbn [y_snd y_w y_segs y_acks y_rcv y_out]. split; [|split; [exact QB|]].
    { eapply good_step; [exact HG|exact OK|exact (OR eq_refl)| |exact ES]. unfold QMAX in QB. lia. }
    split; [eapply Inv_mono; [|exact HR]; intros y b; apply at_w_mono|]. split; [eapply seg_bytes_mono; [|exact HB]; intros y b; apply at_w_mono|]. split; [rewrite zlen_app; pose proof (zlen_nonneg (accepted a os)); lia|].
    split; [apply Forall_app; split|].
    + eapply Forall_impl; [|exact HS]. intros p. apply seg_inv_mono.
    + apply frames_inv with (t := t) (t' := t'); try assumption. eapply good_reach; exact HG.
    + eapply Forall_impl; [|exact HK]. intros k. apply ack_inv_mono. lia.
  - pose proof HS as HS0. rewrite Forall_forall in HS. destruct (HS p IP) as (o' & O1 & O2 & O3 & O4 & O5 & O6).
    destruct (seg_ok (irs + 1) (at_w w) (zlen w) cap st (zlen out) l false o' (w_pay p) false HC) as (st1 & acks1 & l1 & fin1 & E & S1 & (k1 & S2) & S3 & _ & _ & S5 & _);
      [apply at_w_lt|exact HR|apply at_offset_bytes; assumption|discriminate|apply at_offset_len; exact O3|pose proof (at_offset_len _ _ _ O3); pose proof (zlen_nonneg (w_pay p)); unfold QMAX, LIFE in *; lia|exact O6|].
    rewrite O2 in ES. unfold iss in ES. rewrite sq_norm, E in ES. assert (st' = st1 /\ acks = acks1) as [-> ->] by (split; congruence). destruct fin1; [destruct (S5 eq_refl); discriminate|].
    assert (SB : seg_bytes (at_w w) 0 (out ++ l1)).
    { apply seg_bytes_app; [intros i b EN; apply (HB i b); rewrite nth_error_app1; [exact EN|apply nth_error_Some; congruence]|]. destruct S1 as [(_ & _ & _ & RP & _) _ _ _ _ _ _]. exact RP. }
    exists u, l1. cbn [y_snd y_w y_segs y_acks y_rcv y_out]. split; [exact HG|]. split; [exact HQ|]. split; [exact S1|]. split; [exact SB|].
    destruct (prefix_of _ _ SB) as (rest & WE). assert (WL : zlen w = zlen out + zlen l1 + zlen rest) by (rewrite WE, !zlen_app; lia). pose proof (zlen_nonneg rest). pose proof (zlen_nonneg k1).
    assert (LL : zlen l1 = zlen l + zlen k1) by (rewrite S2; apply zlen_app). split; [lia|]. split; [exact HS0|]. apply Forall_app. split.
    + eapply Forall_impl; [|exact HK]. intros k X. replace w with (w ++ []) by apply app_nil_r. eapply ack_inv_mono; [|exact X]. lia.
    + subst o. apply (NW st1); [exact S1|lia|exact S3].
  - exists u, l. cbn [y_snd y_w y_segs y_acks y_rcv y_out]. split; [exact HG|]. split; [exact HQ|]. split; [exact HR|]. split; [exact HB|]. split; [exact HU|]. split; [exact HS|]. apply Forall_app. split; [exact HK|].
    apply (NW st l HR ltac:(lia) [ack_of st]). constructor; [|constructor]. apply (inv_ack_ok _ _ _ _ _ _ _ _ HC HR).
  - destruct (pop_ok (irs + 1) (at_w w) (zlen w) cap st (zlen out) l false shift len HC HR HL) as (st1 & bs1 & acks1 & l1 & E & S1 & S2 & S3 & S4 & S5 & _).
    rewrite E in ES. assert (st' = st1 /\ bs = bs1 /\ acks = acks1) as (-> & -> & ->) by (repeat split; congruence).
    exists u, l1. cbn [y_snd y_w y_segs y_acks y_rcv y_out]. rewrite zlen_app. split; [exact HG|]. split; [exact HQ|]. split; [exact S3|]. rewrite S1 in HB, HU, HK. rewrite zlen_app in HU, HK. split; [rewrite <- app_assoc; exact HB|]. split; [lia|]. split; [exact HS|].
    replace (zlen out + zlen bs1 + zlen l1) with (zlen out + (zlen bs1 + zlen l1)) by lia. apply Forall_app. split; [exact HK|].
    rewrite S1 in NW. rewrite zlen_app in NW. replace (zlen bs1 + zlen l1) with (zlen l) by (rewrite S1; apply zlen_app).
    apply (NW st); [exact HR|rewrite S1, zlen_app; lia|]. eapply Forall_impl; [|exact S4]. intros a ->. rewrite <- S1. apply (inv_ack_ok _ _ _ _ _ _ _ _ HC HR).
  - rewrite Forall_forall in HK. destruct (HK k IK) as (m & M1 & M2 & M3). assert (RG : u - 268435456 <= m <= zlen w) by (unfold QMAX, LIFE in *; lia).
    exists (Z.max u m), l. cbn [y_snd y_w y_segs y_acks y_rcv y_out]. split; [eapply good_ack; [exact HG| |exact RG|exact ES]; rewrite EA, M1; reflexivity|]. split.
    { destruct (tcp_ack_frees_exactly_covered iss t w a m t' os HIS (good_reach _ _ _ _ HG) ltac:(unfold QMAX in HQ; lia) ltac:(rewrite EA, M1; reflexivity) ltac:(unfold QMAX, LIFE in *; lia) ES) as ((freed & F1 & _) & _).
      rewrite F1, zlen_app in HQ. pose proof (zlen_nonneg freed). lia. }
    split; [exact HR|]. split; [exact HB|]. split; [lia|]. split; [exact HS|]. apply Forall_forall. exact HK.
Qed.
Lemma sreach_inv irs cap s : 0 < cap < 536870912 -> is_u32 irs -> sreach true irs cap s -> sys_inv irs cap s.
Proof.
  intros HC HI H. induction H as [t mem HF HM|s s' H IH ST]; [|eapply sys_inv_step; eassumption].
  exists 0, []. cbn [y_snd y_w y_segs y_acks y_rcv y_out]. split; [apply good_init; exact HF|]. destruct HF as (_ & Q & _). rewrite Q. split; [cbv; discriminate|].
  split; [apply init_inv; assumption|]. split; [intros i b E; destruct i; discriminate|]. split; [cbv; split; discriminate|]. split; constructor.
Qed.

(** ** C66 *)
(** In every execution: the bytes recv() has returned, followed by the bytes recv() could
    return now, are a prefix of the bytes send() accepted; and every byte accepted that is
    not in that prefix is still in the sender's queue.
    Partial: the sender queues no bare ACK behind unacknowledged data; without that
    condition the second half is false of the code (tcp_end_to_end_reliable_refuted). *)
Theorem tcp_end_to_end_reliable_partial : forall irs cap s, 0 < cap < 536870912 -> is_u32 irs -> sreach true irs cap s ->
  let received := y_out s ++ readable (y_rcv s) in
  (exists missing, y_w s = received ++ missing) /\
  (exists done, y_w s = done ++ concat (map s_pay (t_q (y_snd s))) /\ zlen done <= zlen received).
Proof.
  intros irs cap s HC HI HR. destruct (sreach_inv _ _ _ HC HI HR) as (u & l & HG & HQ & HV & HB & HU & _ & _). rewrite (readable_inv _ _ _ _ _ _ _ _ HC HV). cbv zeta.
  split; [apply prefix_of; exact HB|]. pose proof (good_inv _ _ _ _ (u32_is _) HG) as (_ & HO & _ & _). pose proof (reach_inv _ _ _ (u32_is _) (good_reach _ _ _ _ HG)) as ((pre & W & _) & _).
  exists pre. split; [exact W|]. unfold head_off in HO. rewrite W, zlen_app in HO. rewrite zlen_app. lia.
Qed.
Print Assumptions tcp_end_to_end_reliable_partial.

(** No delivery can fail: the receiving host accepts any packet of the network and any read. *)
Theorem tcp_end_to_end_never_stuck : forall irs cap t w sg ks st out, 0 < cap < 536870912 -> is_u32 irs -> sreach true irs cap (mkSys t w sg ks st out) ->
  (forall p, In p sg -> zlen w - w_born p <= LIFE -> exists st' acks, seg_input st (w_seq p) (w_pay p) false = Some (st', acks)) /\
  (forall shift len, 0 <= len < 4294967296 -> exists st' bs acks, sock_recv st shift len = Some (st', (bs, acks)) /\ exists later, readable st = bs ++ later /\ zlen bs = Z.min len (zlen (readable st))).
Proof.
  intros irs cap t w sg ks st out HC HI HR. destruct (sreach_inv _ _ _ HC HI HR) as (u & l & HG & HQ & HV & HB & HU & HS & _). cbn [y_snd y_w y_segs y_acks y_rcv y_out] in *.
  pose proof (good_inv _ _ _ _ (u32_is _) HG) as (_ & HO & _ & _). unfold head_off in HO. split.
  - intros p IP LF. rewrite Forall_forall in HS. destruct (HS p IP) as (o & O1 & O2 & O3 & O4 & O5 & O6).
    destruct (seg_ok (irs + 1) (at_w w) (zlen w) cap st (zlen out) l false o (w_pay p) false HC) as (st1 & acks1 & l1 & fin1 & E & _);
      [apply at_w_lt|exact HV|apply at_offset_bytes; assumption|discriminate|apply at_offset_len; exact O3|pose proof (at_offset_len _ _ _ O3); pose proof (zlen_nonneg (w_pay p)); unfold QMAX, LIFE in *; lia|exact O6|].
    exists st1, acks1. rewrite O2, sq_norm. exact E.
  - intros shift len HL. destruct (pop_ok (irs + 1) (at_w w) (zlen w) cap st (zlen out) l false shift len HC HV HL) as (st1 & bs & acks & l1 & E & S1 & S2 & _). exists st1, bs, acks. split; [exact E|].
    rewrite (readable_inv _ _ _ _ _ _ _ _ HC HV). exists l1. split; [exact S1|exact S2].
Qed.
Print Assumptions tcp_end_to_end_never_stuck.
