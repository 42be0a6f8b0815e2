(** Properties of the TCP sender (C18, C42-C46). *)
From Verif Require Import Base ListUtil Seq SeqProps Rto TcpRecv TcpSack TcpRecvProofs TcpSend TcpSendProofs.

(** ** Specification vocabulary *)
(** The bytes of stream [w] at offsets [o, o + zlen p). *)
Definition at_offset (w : list Z) (o : Z) (p : list Z) : Prop := exists a b, w = a ++ p ++ b /\ zlen a = o.
(** A connection just established with initial sequence number [iss] (first data byte) and
    nothing queued. *)
Definition fresh (iss : Z) (t : tcb) : Prop :=
  is_u32 iss /\ t_q t = [] /\ t_una t = iss /\ t_nxt t = iss /\ t_st t = CEst /\ t_ctrl t = false /\ t_tmr t = TNone.
(** What the environment must respect: payload cap as computed by the stack, 32-bit ACKs. *)
Definition ok_act (a : act) : Prop :=
  match a with ASend _ cap _ => cap <= 65535 | AAck k => is_u32 (a_ack k) | _ => True end.
(** Bytes handed over by the application in one step: the first [n] of a send returning n > 0. *)
Definition accepted (a : act) (os : list obs) : list Z :=
  match a, os with ASend d _ _, [OAccepted n] => if 0 <? n then zfirstn n d else [] | _, _ => [] end.
(** All reachable states, with the stream W accepted so far. *)
Inductive reach (iss : Z) : tcb -> list Z -> Prop :=
| reach_init : forall t, fresh iss t -> reach iss t []
| reach_step : forall t w a t' os, reach iss t w -> ok_act a -> step t a = Some (t', os) -> reach iss t' (w ++ accepted a os).

(** ** The invariant *)
Definition small (q : list seg) : Prop := Forall (fun s => slen s <= 65535) q.
Definition qinv (iss : Z) (w : list Z) (q : list seg) : Prop := exists pre, w = pre ++ bytes q /\ lay iss (zlen pre) q.
Definition inv (iss : Z) (t : tcb) (w : list Z) : Prop :=
  qinv iss w (t_q t) /\ t_nxt t = sq iss (zlen w) /\ is_u32 (t_una t) /\ Forall segok (t_q t) /\ small (t_q t).

Lemma small_cores a b : cores a = cores b -> small a -> small b.
Proof.
  unfold small. revert b. induction a as [|s a IH]; intros [|s' b] E H; cbn in E; try discriminate; [constructor|]. injection E as E1 E2 E3. constructor; [|apply IH; [exact E3|eapply Forall_inv_tail; exact H]].
  apply Forall_inv in H. unfold slen in *. rewrite <- E2. exact H.
Qed.
Lemma small_drops a b : drops a b -> small a -> small b.
Proof. intros (x & y & -> & E) H. eapply small_cores; [exact E|]. unfold small in *. apply Forall_app in H. tauto. Qed.
Lemma qinv_drops iss w a b : drops a b -> qinv iss w a -> qinv iss w b.
Proof.
  intros (x & y & -> & E) (pre & -> & L). rewrite bytes_app in *. apply lay_app in L. destruct L as [_ L]. exists (pre ++ bytes x).
  rewrite <- app_assoc, <- (bytes_cores _ _ E). split; [reflexivity|]. rewrite zlen_app. eapply lay_cores; eassumption.
Qed.
Lemma qinv_carries iss w q s p : qinv iss w q -> In (s, p) (cores q) -> exists o, 0 <= o /\ zlen w - zlen (bytes q) <= o /\ s = sq iss o /\ at_offset w o p.
Proof.
  intros (pre & -> & L) H. apply in_map_iff in H. destruct H as (x & X & I0). unfold core in X. apply in_split in I0. destruct I0 as (a & b & ->).
  apply lay_app in L. destruct L as [_ L]. cbn [lay] in L. destruct L as [L _]. assert (s = s_seq x /\ p = s_pay x) as [-> ->] by (split; congruence).
  exists (zlen pre + zlen (bytes a)). pose proof (zlen_nonneg pre). pose proof (zlen_nonneg (bytes a)). split; [lia|]. split; [rewrite zlen_app; lia|]. split; [exact L|].
  exists (pre ++ bytes a), (bytes b). rewrite bytes_app, <- !app_assoc. split; [unfold bytes; reflexivity|apply zlen_app].
Qed.
Lemma is_u32_sq iss o : is_u32 (sq iss o).
Proof. unfold is_u32, sq, u32. apply Z.mod_pos_bound. lia. Qed.
Lemma empty_inv iss t w : inv iss t w -> forall u, t_q u = t_q t ++ [new_seg (t_nxt t) []] -> t_nxt u = t_nxt t -> t_una u = t_una t -> inv iss u w.
Proof.
  intros ((pre & E & L) & N & U & K & S0) u Q1 N1 U1. unfold inv. rewrite Q1, N1, U1. split.
  - exists pre. rewrite bytes_app. change (bytes [new_seg (t_nxt t) []]) with (@nil Z). rewrite app_nil_r. split; [exact E|]. apply lay_app. split; [exact L|]. cbn [lay new_seg s_seq]. rewrite N, E, zlen_app. split; [reflexivity|exact I].
  - split; [exact N|]. split; [exact U|]. split; [apply Forall_app; split; [exact K|constructor; [split; reflexivity|constructor]]|].
    unfold small. apply Forall_app. split; [exact S0|constructor; [cbv; discriminate|constructor]].
Qed.
Lemma same_inv iss t w u : inv iss t w -> cores (t_q u) = cores (t_q t) -> Forall segok (t_q u) -> t_nxt u = t_nxt t -> is_u32 (t_una u) -> inv iss u w.
Proof.
  intros (Q & N & U & K & S0) E K' N' U'. unfold inv. rewrite N'. split; [eapply qinv_drops; [apply drops_cores; symmetry; exact E|exact Q]|]. split; [exact N|]. split; [exact U'|]. split; [exact K'|].
  eapply small_cores; [symmetry; exact E|exact S0].
Qed.
Lemma fl_segoks a b : Forall2 fl a b -> Forall segok a -> Forall segok b.
Proof. intros H K. rewrite Forall_forall in *. intros y Iy. destruct (Forall2_in_r fl _ _ y H Iy) as (x & Ix & F). eapply fl_ok; [exact F|auto]. Qed.
Lemma step_inv iss t w a t' os : inv iss t w -> ok_act a -> step t a = Some (t', os) -> inv iss t' (w ++ accepted a os).
Proof.
  intros HI HA E. pose proof HI as (Q & N & U & K & S0). destruct a; cbn [step ok_act] in *.
  - destruct (tcp_sock_send t data cap rooms) as [t1 n] eqn:ES. assert (t' = t1 /\ os = [OAccepted n]) as [-> ->] by (split; congruence). clear E. cbn [accepted].
    unfold tcp_sock_send in ES. destruct data as [|d0 dr]; [assert (t1 = t /\ n = -1) as [-> ->] by (split; congruence); cbn; rewrite app_nil_r; exact HI|]. set (data := d0 :: dr) in *.
    assert (BAD : forall k, k <= 0 -> (t1, n) = (t, k) -> inv iss t1 (w ++ (if 0 <? n then zfirstn n data else []))).
    { intros k Hk X. assert (t1 = t /\ n = k) as [-> ->] by (split; congruence). destruct (Z.ltb_spec 0 k); [lia|]. rewrite app_nil_r. exact HI. }
    destruct (t_st t); [| |apply (BAD (-1)); [lia|congruence]|apply (BAD (-1)); [lia|congruence]].
    all: destruct (send_loop PUSH_ITER (t_nxt t) data cap rooms) as [[segs nx] m] eqn:EL;
      destruct (send_loop_spec iss cap _ _ _ _ _ _ _ (zlen w) EL N) as (A1 & A2 & A3 & A4 & A5 & A6);
      (destruct (Z.eqb_spec m 0) as [M0|M0]; [apply (BAD (-11)); [lia|congruence]|]);
      assert (t1 = upd_nxt (upd_q t (t_q t ++ segs)) nx /\ n = m) as [-> ->] by (split; congruence);
      (destruct (Z.ltb_spec 0 m); [|lia]); unfold inv; cbn [t_q t_nxt t_una upd_nxt upd_q]; rewrite zlen_app, zlen_zfirstn by lia;
      (split; [|split; [exact A4|]; split; [exact U|]; split; [apply Forall_app; split; [exact K|exact A5]|]; unfold small; apply Forall_app; split; [exact S0|]; eapply Forall_impl; [|exact A6]; cbn; intros s (_ & B & _); lia]);
      destruct Q as (pre & E & L); exists pre; rewrite bytes_app, A2, app_assoc, <- E; (split; [reflexivity|]); apply lay_app; (split; [exact L|]); rewrite <- zlen_app, <- E; exact A3.
  - assert (t' = tcp_send_empty t room) by congruence. subst t'. cbn [accepted]. rewrite app_nil_r. unfold tcp_send_empty. destruct room; [|exact HI]. eapply empty_inv; [exact HI|reflexivity|reflexivity|reflexivity].
  - destruct (tcp_ack t a) as [t1 r] eqn:EA. assert (t' = t1) by congruence. subst t1. cbn [accepted]. rewrite app_nil_r.
    destruct (tcp_ack_spec _ _ _ _ EA K) as (rm & rest & Q1 & Q2 & Q3 & Q4 & Q5 & Q6 & _).
    assert (D : drops (t_q t) (t_q t')) by (exists rm, rest; split; [exact Q1|apply fl_cores; exact Q2]).
    unfold inv. split; [eapply qinv_drops; eassumption|]. split; [unfold frame in Q5; congruence|]. split.
    { rewrite Q6. destruct (negb _ && _ && _); assumption. }
    split; [|eapply small_drops; eassumption]. eapply fl_segoks; [exact Q2|]. rewrite Q1 in K. apply Forall_app in K. tauto.
  - assert (t' = upd_rwnd t w0) by congruence. subst t'. cbn [accepted]. rewrite app_nil_r. exact HI.
  - destruct (tcp_rto_cb t room giveup) as [t1|] eqn:ER; [|discriminate]. assert (t' = t1) by congruence. subst t1. cbn [accepted]. rewrite app_nil_r.
    destruct (rto_cb_spec _ _ _ _ ER K) as ((A & B & C) & [(q & D & F)|(_ & _ & F)]).
    + eapply same_inv; [exact HI|rewrite F; symmetry; apply fl_cores; exact D|exact C|exact A|rewrite B; exact U].
    + eapply empty_inv; eassumption.
  - destruct (flush_tcp_tx t oks) as [t1 o] eqn:EF. assert (t' = t1) by congruence. subst t1. cbn [accepted]. rewrite app_nil_r. unfold flush_tcp_tx in EF.
    destruct (resync_frame t) as (R1 & R2 & R3). destruct (flush_loop_spec _ _ _ _ _ _ EF ltac:(rewrite R1; exact K)) as (F1 & F2 & F3 & F4 & _). rewrite R1 in *.
    unfold inv. split; [eapply qinv_drops; eassumption|]. split; [unfold frame in *; congruence|]. split; [congruence|]. split; [exact F2|]. eapply small_drops; eassumption.
  - assert (t' = t) by congruence. subst t'. cbn [accepted]. rewrite app_nil_r. exact HI.
  - assert (t' = tcp_sock_close t room) by congruence. subst t'. cbn [accepted]. rewrite app_nil_r. unfold tcp_sock_close. destruct (t_st t); try exact HI; (destruct room; [|exact HI]); (eapply empty_inv; [exact HI|reflexivity|reflexivity|reflexivity]).
  - cbn [accepted]. rewrite app_nil_r. destruct (t_st t); assert (t' = t \/ t' = upd_st t CCloseWait (t_ctrl t)) as [-> | ->] by (first [left; congruence|right; congruence]); exact HI.
  - assert (t' = upd_now t now) by congruence. subst t'. cbn [accepted]. rewrite app_nil_r. exact HI.
Qed.
Lemma reach_inv iss t w : is_u32 iss -> reach iss t w -> inv iss t w.
Proof.
  intros HU H. induction H as [t (_ & Q & A & B & _)|t w a t' os H IH OK E]; [|eapply step_inv; eassumption].
  unfold inv. rewrite Q, A, B. split; [exists []; split; [reflexivity|exact I]|]. split; [unfold sq, u32; change (zlen (@nil Z)) with 0; rewrite Z.add_0_r, Z.mod_small by exact HU; reflexivity|].
  split; [exact HU|]. split; constructor.
Qed.

(** ** C42: what is on the wire is the application's stream *)
(** In every execution, every frame transmitted (first transmission, retransmission or
    zero-window probe) carries exactly the bytes the application gave to send(), at the
    place its sequence number says, and only bytes still queued (not yet acknowledged in
    whole segments). *)
Theorem tcp_sender_stream_integrity : forall iss t w a t' os,
  is_u32 iss -> reach iss t w -> ok_act a -> step t a = Some (t', os) ->
  forall e seq pay, In e os -> (e = OTx (mkTx seq pay true) \/ e = OTx (mkTx seq pay false) \/ exists b, e = OProbe seq b /\ pay = [b]) ->
  exists o, 0 <= o /\ zlen w - zlen (bytes (t_q t)) <= o /\ seq = (iss + o) mod 4294967296 /\ at_offset w o pay.
Proof.
  intros iss t w a t' os HU HR HA E e seq pay IE HE. pose proof (reach_inv _ _ _ HU HR) as (Q & N & U & K & S0).
  destruct a; cbn [step] in E.
  - destruct (tcp_sock_send t data cap rooms) as [t1 n]. assert (os = [OAccepted n]) by congruence. subst os. destruct IE as [<- |[]]. destruct HE as [X|[X|(b & X & _)]]; discriminate.
  - assert (os = []) by congruence. subst. destruct IE.
  - destruct (tcp_ack t a) as [t1 r]. assert (os = match r with Some r => [OSample r] | None => [] end) by congruence. subst os. destruct r; [|destruct IE]. destruct IE as [<- |[]]. destruct HE as [X|[X|(b & X & _)]]; discriminate.
  - assert (os = []) by congruence. subst. destruct IE.
  - destruct (tcp_rto_cb t room giveup); [|discriminate]. assert (os = []) by congruence. subst. destruct IE.
  - destruct (flush_tcp_tx t oks) as [t1 o] eqn:EF. assert (os = map OTx o) by congruence. subst os. unfold flush_tcp_tx in EF.
    destruct (resync_frame t) as (R1 & R2 & R3). destruct (flush_loop_spec _ _ _ _ _ _ EF ltac:(rewrite R1; exact K)) as (F1 & F2 & F3 & F4 & F5). rewrite R1 in *.
    apply in_map_iff in IE. destruct IE as (x & <- & Ix). rewrite Forall_forall in F5.
    assert (XE : x_seq x = seq /\ x_pay x = pay) by (destruct HE as [X|[X|(b & X & _)]]; [| |discriminate]; injection X as ->; split; reflexivity). destruct XE as [<- <-].
    destruct (F5 x Ix) as [X|(s & X & _)]; [|discriminate]. eapply qinv_carries; eassumption.
  - assert (os = match persist_probe t with Some (s, b) => [OProbe s b] | None => [] end) by congruence. subst os. destruct (persist_probe t) as [[s b]|] eqn:EP; [|destruct IE]. destruct IE as [<- |[]].
    destruct HE as [X|[X|(b' & X & ->)]]; try discriminate. assert (s = seq /\ b = b') as [-> ->] by (split; congruence).
    assert (PF : probe_find (t_una t) (t_q t) = Some (seq, b')) by (unfold persist_probe in EP; destruct (t_st t); try discriminate; destruct ((0 <? t_rwnd t) || negb (has_unsent (t_q t))); try discriminate; exact EP).
    assert (PS : forall q, small q -> probe_find (t_una t) q = Some (seq, b') -> exists sg a0 r, In sg q /\ s_pay sg = a0 ++ b' :: r /\ seq = u32 (s_seq sg + zlen a0) \/ exists sg r, In sg q /\ s_pay sg = b' :: r /\ seq = s_seq sg).
    { clear - U. induction q as [|x q IH]; intros SM PF; [discriminate|]. cbn [probe_find] in PF. destruct (Z.eqb_spec (slen x) 0) as [Z0|Z0].
      - destruct (IH (Forall_inv_tail SM) PF) as (sg & a0 & r & [(A & B & C)|(sg' & r' & A & B & C)]).
        + exists sg, a0, r. left. split; [right; exact A|]. auto.
        + exists sg, a0, r. right. exists sg', r'. split; [right; exact A|]. auto.
      - destruct (tcp_seq_leq (s_seq x) (t_una t) && tcp_seq_lt (t_una t) (tcp_seq_inc (s_seq x) (slen x))).
        + destruct (nth_error (s_pay x) (Z.to_nat (u32 (t_una t - s_seq x)))) as [b|] eqn:EN; [|discriminate]. assert (t_una t = seq /\ b = b') as [<- ->] by (split; congruence).
          apply nth_error_split in EN. destruct EN as (a0 & r & E1 & E2). exists x, a0, r. left. split; [left; reflexivity|]. split; [exact E1|].
          assert (X : zlen a0 = u32 (t_una t - s_seq x)) by (unfold zlen; rewrite E2; rewrite Z2Nat.id; [reflexivity|]; unfold u32; apply Z.mod_pos_bound; lia).
          rewrite X. unfold u32. rewrite Zplus_mod_idemp_r. replace (s_seq x + (t_una t - s_seq x)) with (t_una t) by lia. symmetry. apply Z.mod_small. exact U.
        + destruct (s_pay x) as [|b r] eqn:EP; [discriminate|]. assert (s_seq x = seq /\ b = b') as [<- ->] by (split; congruence). exists x, [], r. right. exists x, r. split; [left; reflexivity|]. auto. }
    destruct (PS _ S0 PF) as (sg & a0 & r & [(A & B & C)|(sg' & r' & A & B & C)]).
    + destruct (qinv_carries iss w (t_q t) (s_seq sg) (s_pay sg) Q ltac:(apply in_map_iff; exists sg; split; [reflexivity|exact A])) as (o & O1 & OQ & O2 & (p1 & p2 & O3 & O4)).
      pose proof (zlen_nonneg a0). exists (o + zlen a0). split; [lia|]. split; [lia|]. split; [rewrite C, O2; unfold sq, u32; rewrite Zplus_mod_idemp_l; f_equal; lia|].
      exists (p1 ++ a0), (r ++ p2). rewrite O3, B, zlen_app. split; [rewrite <- !app_assoc; reflexivity|lia].
    + destruct (qinv_carries iss w (t_q t) (s_seq sg') (s_pay sg') Q ltac:(apply in_map_iff; exists sg'; split; [reflexivity|exact A])) as (o & O1 & OQ & O2 & (p1 & p2 & O3 & O4)).
      exists o. split; [exact O1|]. split; [exact OQ|]. split; [rewrite C; exact O2|]. exists p1, (r' ++ p2). rewrite O3, B. split; [reflexivity|exact O4].
  - assert (os = []) by congruence. subst. destruct IE.
  - assert (os = []) by congruence. subst. destruct IE.
  - assert (os = []) by congruence. subst. destruct IE.
Qed.
Print Assumptions tcp_sender_stream_integrity.

(** send(): a positive result n means exactly the first n bytes were queued, in order, as
    consecutive segments of at most [cap] bytes each; any other result queues nothing. *)
Theorem tcp_send_accepts_prefix : forall t data cap rooms t' n, is_u32 (t_nxt t) -> tcp_sock_send t data cap rooms = (t', n) ->
  (0 < n <= zlen data /\ exists segs, t_q t' = t_q t ++ segs /\ concat (map s_pay segs) = zfirstn n data /\ t_nxt t' = (t_nxt t + n) mod 4294967296 /\
     Forall (fun s => 0 < zlen (s_pay s) <= cap) segs) \/
  (n < 0 /\ t' = t).
Proof.
  intros t data cap rooms t' n HU E. unfold tcp_sock_send in E. destruct data as [|d0 dr]; [right; split; [assert (n = -1) by congruence; lia|congruence]|]. set (data := d0 :: dr) in *.
  assert (N0 : t_nxt t = sq (t_nxt t) 0) by (unfold sq, u32; rewrite Z.add_0_r, Z.mod_small by exact HU; reflexivity).
  destruct (t_st t); [| |right; split; [assert (n = -1) by congruence; lia|congruence]|right; split; [assert (n = -1) by congruence; lia|congruence]].
  all: destruct (send_loop PUSH_ITER (t_nxt t) data cap rooms) as [[segs nx] m] eqn:EL; destruct (send_loop_spec (t_nxt t) cap _ _ _ _ _ _ _ 0 EL N0) as (G1 & G2 & _ & G3 & _ & G4);
    (destruct (Z.eqb_spec m 0) as [M0|M0]; [right; split; [assert (n = -11) by congruence; lia|congruence]|]); left; assert (t' = upd_nxt (upd_q t (t_q t ++ segs)) nx /\ n = m) as [-> ->] by (split; congruence);
    (split; [lia|]); exists segs; (split; [reflexivity|]); (split; [exact G2|]); (split; [exact G3|]); eapply Forall_impl; [|exact G4]; cbn; intros s (A & B & _); unfold slen in B; (split; [|exact B]); destruct (s_pay s); [congruence|]; rewrite zlen_cons; pose proof (zlen_nonneg l); lia.
Qed.
Print Assumptions tcp_send_accepts_prefix.

(** ** C18: acknowledgement frees exactly what it covers *)
(** Stream offset of the oldest byte still queued. *)
Definition head_off (w : list Z) (t : tcb) : Z := zlen w - zlen (bytes (t_q t)).
Lemma removed_bound iss (A lim : Z) : forall rm o, lay iss o rm -> small rm -> 0 <= A - o + 1073741824 -> o + zlen (bytes rm) <= lim -> lim - A < 2147483648 -> A < lim + 1 -> A - o < 2147483648 ->
  Forall (fun s => s_pay s = [] \/ covered (sq iss A) s) rm -> bytes rm = [] \/ o + zlen (bytes rm) <= A.
Proof.
  induction rm as [|s rm IH]; intros o L SM H1 H2 H3 H3' H4 F; [left; reflexivity|]. cbn [lay] in L. destruct L as [L1 L2]. unfold bytes in *. cbn [map concat] in *. rewrite zlen_app in *. fold (slen s) in *.
  assert (LS : 0 <= slen s <= 65535) by (apply Forall_inv in SM; unfold slen in *; pose proof (zlen_nonneg (s_pay s)); lia). pose proof (zlen_nonneg (concat (map s_pay rm))) as ZB.
  pose proof (Forall_inv F) as F0. pose proof (Forall_inv_tail F) as F'.
  destruct F0 as [F0|(_ & F1 & F2)].
  - rewrite F0 in *. cbn [app]. assert (slen s = 0) as Z0 by (unfold slen; rewrite F0; reflexivity). rewrite Z0 in *. destruct (IH (o + 0) L2 (Forall_inv_tail SM) ltac:(lia) ltac:(lia) ltac:(lia) ltac:(lia) ltac:(lia) F') as [X|X]; [left; exact X|right; lia].
  - right. assert (E : o + slen s <= A).
    { rewrite L1 in F2. replace (u32 (sq iss o + slen s)) with (sq iss (o + slen s)) in F2 by (unfold sq, u32; rewrite Zplus_mod_idemp_l; f_equal; lia). rewrite sq_leqb in F2 by lia. lia. }
    destruct (IH (o + slen s) L2 (Forall_inv_tail SM) ltac:(lia) ltac:(lia) ltac:(lia) ltac:(lia) ltac:(lia) F') as [X|X]; [|lia]. rewrite X. change (zlen (@nil Z)) with 0. lia.
Qed.
Theorem tcp_ack_frees_exactly_covered : forall iss t w k A t' os,
  is_u32 iss -> reach iss t w -> zlen (bytes (t_q t)) <= 536870912 ->
  a_ack k = (iss + A) mod 4294967296 -> zlen w - 1073741824 <= A <= zlen w ->
  step t (AAck k) = Some (t', os) ->
  (* what is freed is the oldest part of the queue, and none of it lies at or beyond the ACK *)
  (exists freed, bytes (t_q t) = freed ++ bytes (t_q t') /\ (freed = [] \/ head_off w t' <= A)) /\
  (* a transmitted segment wholly covered by the ACK is not left at the head *)
  (match t_q t' with s :: _ => s_sent s = true -> s_pay s <> [] -> A < head_off w t' + zlen (s_pay s) | [] => True end).
Proof.
  intros iss t w k A t' os HU HR HB HA HR2 E. pose proof (reach_inv _ _ _ HU HR) as ((pre & W & L) & N & U & K & S0). cbn [step] in E.
  destruct (tcp_ack t k) as [t1 r] eqn:EA. assert (t' = t1) by congruence. subst t1. clear E.
  destruct (tcp_ack_spec _ _ _ _ EA K) as (rm & rest & Q1 & Q2 & Q3 & Q4 & Q5 & Q6 & _). change ((iss + A) mod 4294967296) with (sq iss A) in HA. rewrite HA in *.
  assert (LW : zlen w = zlen pre + zlen (bytes rm) + zlen (bytes rest)) by (rewrite W, Q1, bytes_app, !zlen_app; lia).
  assert (BR : bytes rest = bytes (t_q t')) by (apply bytes_cores, fl_cores; exact Q2).
  rewrite Q1 in L, S0, HB. apply lay_app in L. destruct L as [L1 L2]. rewrite bytes_app, zlen_app in HB. pose proof (zlen_nonneg (bytes rest)). pose proof (zlen_nonneg (bytes rm)).
  unfold head_off. split.
  - exists (bytes rm). rewrite Q1, bytes_app, BR. split; [reflexivity|]. rewrite <- BR.
    destruct (removed_bound iss A (zlen w) rm (zlen pre) L1 ltac:(unfold small in *; apply Forall_app in S0; tauto) ltac:(lia) ltac:(lia) ltac:(lia) ltac:(lia) ltac:(lia) Q3) as [X|X]; [left; exact X|right; lia].
  - destruct (t_q t') as [|s' q'] eqn:EQ; [exact I|]. inversion Q2 as [|s y r0 l' F F' Q2a Q2b]; subst. intros SS NP. rewrite <- BR.
    destruct F as [-> |(_ & _ & ->)]; [|discriminate SS]. cbn [lay] in L2. destruct L2 as [L2 _]. destruct Q4 as [X|[X|X]]; [congruence|congruence|].
    assert (LS : 0 <= slen s <= 65535) by (unfold small in S0; apply Forall_app in S0; destruct S0 as [_ S0]; apply Forall_inv in S0; unfold slen in *; pose proof (zlen_nonneg (s_pay s)); lia).
    rewrite L2 in X. replace (u32 (sq iss (zlen pre + zlen (bytes rm)) + slen s)) with (sq iss (zlen pre + zlen (bytes rm) + slen s)) in X by (unfold sq, u32; rewrite Zplus_mod_idemp_l; f_equal; lia).
    assert (PB : slen s <= zlen (bytes (s :: r0))) by (unfold bytes; cbn [map concat]; rewrite zlen_app; fold (slen s); pose proof (zlen_nonneg (concat (map s_pay r0))); lia).
    rewrite sq_leqb in X by lia. fold (slen s). lia.
Qed.
Print Assumptions tcp_ack_frees_exactly_covered.

(** ** C43: data stays queued until it is acknowledged *)
(** Steps that do not put a bare ACK or FIN behind queued data. *)
Definition orderly (t : tcb) (a : act) : Prop :=
  match a with
  | AEmpty true | AClose true | ARto true _ => bytes (t_q t) = []
  | AAck _ => False
  | _ => True
  end.
(** Executions where every ACK received acknowledges data that was queued (offset A of the
    stream), is not older than 2^29 bytes, and no bare ACK or FIN is queued behind data.
    U is the highest offset acknowledged. *)
Inductive good (iss : Z) : tcb -> list Z -> Z -> Prop :=
| good_init : forall t, fresh iss t -> good iss t [] 0
| good_step : forall t w u a t' os, good iss t w u -> ok_act a -> orderly t a -> zlen (bytes (t_q t')) <= 268435456 -> step t a = Some (t', os) -> good iss t' (w ++ accepted a os) u
| good_ack : forall t w u k A t' os, good iss t w u -> a_ack k = (iss + A) mod 4294967296 -> u - 268435456 <= A <= zlen w -> step t (AAck k) = Some (t', os) -> good iss t' w (Z.max u A).
Lemma good_reach iss t w u : good iss t w u -> reach iss t w.
Proof.
  induction 1 as [t F|t w u a t' os G IH OK OR HB E|t w u k A t' os G IH HA HR E]; [apply reach_init; exact F|eapply reach_step; eassumption|].
  replace w with (w ++ accepted (AAck k) os) by apply app_nil_r. eapply reach_step; [exact IH| |exact E]. cbn. rewrite HA. apply (is_u32_sq iss A).
Qed.
(** Shape of the queue in such executions: bare segments first, none transmitted. *)
Definition shape (q : list seg) : Prop := exists e d, q = e ++ d /\ Forall (fun s => s_pay s = [] /\ s_sent s = false) e /\ Forall (fun s => s_pay s <> []) d.
Definition shp (e d : list seg) : Prop := Forall (fun s => s_pay s = [] /\ s_sent s = false) e /\ Forall (fun s => s_pay s <> []) d.
Lemma nonempty_cores a b : cores a = cores b -> Forall (fun s => s_pay s <> []) a -> Forall (fun s => s_pay s <> []) b.
Proof.
  revert b. induction a as [|s a IH]; intros [|s' b] E H; cbn in E; try discriminate; [constructor|]. injection E as E1 E2 E3. constructor; [rewrite <- E2; exact (Forall_inv H)|apply IH; [exact E3|exact (Forall_inv_tail H)]].
Qed.
Definition start_ok (c : cursor) (e : list seg) : Prop := match c with At i => i = O \/ e = [] | Popped h => s_sent h = true end.
Lemma flush_shape : forall f t c oks t' o e d, flush_loop f t c oks = (t', o) -> t_q t = e ++ d -> shp e d -> start_ok c e ->
  exists e' d', t_q t' = e' ++ d' /\ shp e' d' /\ cores d' = cores d.
Proof.
  induction f as [|f IH]; intros t c oks t' o e d E EQ (HE & HD) HS; cbn [flush_loop] in E.
  { assert (t' = t) by congruence. subst t'. exists e, d. repeat split; assumption. }
  destruct (cur_seg (t_q t) c) as [s|] eqn:EC; [|assert (t' = t) by congruence; subst t'; exists e, d; repeat split; assumption].
  destruct c as [i|h]; cbn [cur_seg start_ok] in *.
  2:{ assert (h = s) by congruence. subst h. rewrite HS in E. eapply IH; [exact E|exact EQ|split; assumption|left; reflexivity]. }
  destruct (s_sent s) eqn:ES.
  { eapply IH; [exact E|exact EQ|split; assumption|]. right. destruct HS as [-> |HS]; [|exact HS]. destruct e as [|x e]; [reflexivity|]. rewrite EQ in EC. cbn in EC. assert (x = s) by congruence. subst x. apply Forall_inv in HE. destruct HE. congruence. }
  destruct oks as [|[|] oks']; try (assert (t' = t) by congruence; subst t'; exists e, d; repeat split; assumption).
  cbn zeta in E. destruct e as [|x e0].
  - cbn [app] in EQ. assert (NP : s_pay s <> []) by (rewrite Forall_forall in HD; apply HD; rewrite <- EQ; eapply nth_error_In; exact EC).
    assert (Z0 : (slen s =? 0) = false) by (apply Z.eqb_neq; intros X; apply NP, slen_zero, X). rewrite Z0 in E.
    destruct (s_retr s || false || _).
    + set (t3 := if s_retr s then _ else _) in *. destruct (flush_loop f t3 (At (S i)) oks') as [t4 o2] eqn:EF. assert (t' = t4) by congruence. subst t4.
      assert (T3 : t_q t3 = [] ++ set_nth i (sent_seg (t_now t) s) d) by (unfold t3; destruct (s_retr s); cbn; rewrite EQ; reflexivity).
      rewrite EQ in EC. assert (CC : cores (set_nth i (sent_seg (t_now t) s) d) = cores d) by (eapply cores_set_nth; [exact EC|reflexivity]).
      destruct (IH _ _ _ _ _ _ _ EF T3) as (e' & d' & A & B & C); [split; [constructor|eapply nonempty_cores; [symmetry; exact CC|exact HD]]|right; reflexivity|].
      exists e', d'. split; [exact A|]. split; [exact B|congruence].
    + destruct (find_retr _ _) as [j|]; [|assert (t' = t) by congruence; subst t'; exists [], d; repeat split; assumption].
      apply (IH _ _ _ _ _ [] d E EQ (conj HE HD)). right. reflexivity.
  - destruct HS as [-> |HS]; [|discriminate]. rewrite EQ in EC. cbn in EC. assert (x = s) by congruence. subst x. pose proof (Forall_inv HE) as [P0 _]. apply slen_zero in P0. rewrite P0 in E. cbn [Z.eqb] in E. rewrite orb_true_r in E. cbn [orb] in E.
    cbn [upd_q t_q] in E. rewrite EQ in E. cbn [app set_nth] in E.
    match type of E with (let '(_, _) := flush_loop f ?u _ _ in _) = _ => set (t3 := u) in * end.
    destruct (flush_loop f t3 (Popped (sent_seg (t_now t) s)) oks') as [t4 o2] eqn:EF. assert (t' = t4) by congruence. subst t4.
    eapply IH; [exact EF|reflexivity|split; [exact (Forall_inv_tail HE)|exact HD]|reflexivity].
Qed.
Lemma shape_drop rm rest q : shape (rm ++ rest) -> Forall2 fl rest q -> shape q.
Proof.
  intros (e & d & E & HE & HD) F.
  assert (X : exists e1 d1, rest = e1 ++ d1 /\ shp e1 d1).
  { clear F. revert e E HE. induction rm as [|x rm IH]; intros e E HE; cbn [app] in E; [exists e, d; repeat split; assumption|].
    destruct e as [|y e]; cbn [app] in E.
    - destruct d as [|y d]; [discriminate|]. injection E as -> E. exists [], rest. split; [reflexivity|]. split; [constructor|]. apply Forall_inv_tail in HD. rewrite <- E in HD. apply Forall_app in HD. tauto.
    - injection E as -> E. eapply IH; [exact E|exact (Forall_inv_tail HE)]. }
  destruct X as (e1 & d1 & -> & HE1 & HD1). apply Forall2_app_inv in F. destruct F as (c1 & c2 & -> & F1 & F2).
  assert (c1 = e1) as ->.
  { clear - F1 HE1. induction F1 as [|x y l l' H H' IH]; [reflexivity|]. pose proof (Forall_inv HE1) as [P0 _]. destruct H as [-> |(_ & N & _)]; [|congruence]. f_equal. apply IH. exact (Forall_inv_tail HE1). }
  exists e1, c2. split; [reflexivity|]. split; [exact HE1|]. eapply nonempty_cores; [apply fl_cores; exact F2|exact HD1].
Qed.
Lemma shape_nodata q : shape q -> bytes q = [] -> Forall (fun s => s_pay s = [] /\ s_sent s = false) q.
Proof.
  intros (e & d & -> & HE & HD) B. destruct d as [|s d]; [rewrite app_nil_r; exact HE|]. exfalso. rewrite bytes_app in B. apply app_eq_nil in B. destruct B as [_ B]. unfold bytes in B. cbn in B. apply app_eq_nil in B. destruct B as [B _]. exact (Forall_inv HD B).
Qed.
Lemma shape_empties q x : Forall (fun s => s_pay s = [] /\ s_sent s = false) q -> shape (q ++ [new_seg x []]).
Proof. intros H. exists (q ++ [new_seg x []]), []. rewrite app_nil_r. split; [reflexivity|]. split; [apply Forall_app; split; [exact H|constructor; [split; reflexivity|constructor]]|constructor]. Qed.
Lemma shape_bytes e d : shp e d -> bytes (e ++ d) = bytes d.
Proof. intros (HE & _). rewrite bytes_app. assert (X : bytes e = []) by (clear - HE; induction HE as [|s e [P0 _] H IH]; [reflexivity|]; unfold bytes in *; cbn; rewrite P0; exact IH). rewrite X. reflexivity. Qed.

Definition ginv (iss : Z) (t : tcb) (w : list Z) (u : Z) : Prop :=
  shape (t_q t) /\ head_off w t <= u <= zlen w /\ t_una t = sq iss u /\ zlen (bytes (t_q t)) <= 268435456.
Lemma good_inv iss t w u : is_u32 iss -> good iss t w u -> ginv iss t w u.
Proof.
  intros HU H. induction H as [t (_ & Q & A & B & _)|t w u a t' os G IH OK OR HB E|t w u k A t' os G IH HA HR E].
  - unfold ginv, head_off. rewrite Q, A. split; [exists [], []; repeat split; constructor|]. split; [cbv; split; discriminate|]. split; [unfold sq, u32; rewrite Z.add_0_r, Z.mod_small by exact HU; reflexivity|cbv; discriminate].
  - pose proof (good_reach _ _ _ _ G) as R. pose proof (reach_inv _ _ _ HU R) as HI. destruct IH as (SH & HO & UN & _). unfold ginv. pose proof HI as (Q & N & U & K & S0).
    assert (SAME : t_una t' = t_una t -> shape (t_q t') -> bytes (t_q t') = bytes (t_q t) -> accepted a os = [] -> shape (t_q t') /\ head_off (w ++ accepted a os) t' <= u <= zlen (w ++ accepted a os) /\ t_una t' = sq iss u /\ zlen (bytes (t_q t')) <= 268435456).
    { intros X1 X2 X3 X4. rewrite X4, app_nil_r. unfold head_off in *. rewrite X3. split; [exact X2|]. split; [exact HO|]. split; [congruence|rewrite <- X3; exact HB]. }
    assert (EMP : forall tt, t_q tt = t_q t ++ [new_seg (t_nxt t) []] -> bytes (t_q t) = [] -> shape (t_q tt) /\ bytes (t_q tt) = bytes (t_q t)).
    { intros tt X Y. rewrite X. split; [apply shape_empties, shape_nodata; assumption|]. rewrite bytes_app. change (bytes [new_seg (t_nxt t) []]) with (@nil Z). apply app_nil_r. }
    destruct a; cbn [step orderly] in *.
    + destruct (tcp_sock_send t data cap rooms) as [t1 n] eqn:ES. assert (t' = t1 /\ os = [OAccepted n]) as [-> ->] by (split; congruence). clear E. cbn [accepted] in *.
      assert (UN1 : t_una t1 = t_una t) by (unfold tcp_sock_send in ES; destruct data; [congruence|]; destruct (t_st t); try congruence; (destruct (send_loop _ _ _ _ _) as [[sg nx] m]; destruct (m =? 0); [congruence|]; assert (t1 = upd_nxt (upd_q t (t_q t ++ sg)) nx) by congruence; subst; reflexivity)).
      assert (UN32 : is_u32 (t_nxt t)) by (rewrite N; apply is_u32_sq).
      destruct (tcp_send_accepts_prefix _ _ _ _ _ _ UN32 ES) as [(P1 & segs & P2 & P3 & P4 & P5)|(P1 & P2)].
      2:{ subst t1. destruct (Z.ltb_spec 0 n); [lia|]. apply SAME; reflexivity || assumption. }
      destruct (Z.ltb_spec 0 n); [|lia]. rewrite zlen_app, zlen_zfirstn by lia. unfold head_off. rewrite P2 in *. rewrite bytes_app in *. fold (bytes segs) in P3. rewrite P3 in *. rewrite !zlen_app, zlen_zfirstn in * by lia. unfold head_off in HO.
      split; [|split; [lia|]; split; [congruence|lia]]. destruct SH as (e & d & -> & HE & HD). exists e, (d ++ segs). rewrite <- app_assoc. split; [reflexivity|]. split; [exact HE|]. apply Forall_app. split; [exact HD|]. eapply Forall_impl; [|exact P5]. cbn. intros s X Y. rewrite Y in X. change (zlen (@nil Z)) with 0 in X. lia.
    + assert (t' = tcp_send_empty t room) by congruence. subst t'. destruct room; [|apply SAME; reflexivity || assumption]. destruct (EMP (tcp_send_empty t true) eq_refl OR) as [X Y]. apply SAME; try assumption; reflexivity.
    + destruct OR.
    + assert (t' = upd_rwnd t w0) by congruence. subst t'. apply SAME; reflexivity || assumption.
    + destruct (tcp_rto_cb t room giveup) as [t1|] eqn:ER; [|discriminate]. assert (t' = t1) by congruence. subst t1. destruct (rto_cb_spec _ _ _ _ ER K) as ((X & Y & C) & [(q & D & F)|(RM & _ & F)]).
      * apply SAME; [exact Y|rewrite F; apply (shape_drop [] (t_q t)); assumption|rewrite F; symmetry; apply bytes_cores, fl_cores; exact D|reflexivity].
      * subst room. destruct (EMP t' F OR) as [X1 Y1]. apply SAME; try assumption; reflexivity.
    + destruct (flush_tcp_tx t oks) as [t1 o] eqn:EF. assert (t' = t1) by congruence. subst t1. unfold flush_tcp_tx in EF. destruct (resync_frame t) as (R1 & R2 & R3).
      destruct SH as (e & d & E1 & SH). destruct (flush_shape _ _ _ _ _ _ e d EF ltac:(congruence) SH ltac:(left; reflexivity)) as (e' & d' & A1 & A2 & A3).
      destruct (flush_loop_spec _ _ _ _ _ _ EF ltac:(rewrite R1; exact K)) as (F1 & F2 & F3 & F4 & _).
      apply SAME; [congruence|exists e', d'; split; [exact A1|exact A2]| |reflexivity]. rewrite A1, E1, !shape_bytes by assumption. apply bytes_cores. exact A3.
    + assert (t' = t) by congruence. subst t'. apply SAME; reflexivity || assumption.
    + assert (t' = tcp_sock_close t room) by congruence. subst t'. unfold tcp_sock_close in *. destruct (t_st t) eqn:EST; try (apply SAME; reflexivity || assumption); (destruct room; [|apply SAME; reflexivity || assumption]);
        match goal with |- shape (t_q ?x) /\ _ => destruct (EMP x eq_refl OR) as [X Y] end; apply SAME; try assumption; reflexivity.
    + assert (t' = t \/ t' = upd_st t CCloseWait (t_ctrl t)) as [-> | ->] by (destruct (t_st t); first [left; congruence|right; congruence]); apply SAME; reflexivity || assumption.
    + assert (t' = upd_now t now) by congruence. subst t'. apply SAME; reflexivity || assumption.
  - pose proof (good_reach _ _ _ _ G) as R. pose proof (reach_inv _ _ _ HU R) as (Q & N & U & K & S0). destruct IH as (SH & HO & UN & HB). unfold head_off in HO.
    assert (RG : zlen w - 1073741824 <= A <= zlen w) by lia.
    destruct (tcp_ack_frees_exactly_covered iss t w k A t' os HU R ltac:(lia) HA RG E) as ((freed & F1 & F2) & _).
    cbn [step] in E. destruct (tcp_ack t k) as [t1 r] eqn:EA. assert (t' = t1) by congruence. subst t1. clear E. destruct (tcp_ack_spec _ _ _ _ EA K) as (rm & rest & Q1 & Q2 & Q3 & Q4 & Q5 & Q6 & _).
    unfold ginv. split; [rewrite Q1 in SH; eapply shape_drop; eassumption|]. assert (ZL : zlen (bytes (t_q t)) = zlen freed + zlen (bytes (t_q t'))) by (rewrite F1; apply zlen_app). pose proof (zlen_nonneg freed). pose proof (zlen_nonneg (bytes (t_q t'))). unfold head_off in *.
    split; [destruct F2 as [F2|F2]; [rewrite F2 in *; change (zlen (@nil Z)) with 0 in *; lia|lia]|]. split; [|lia].
    rewrite Q6, UN, HA, N. change ((iss + A) mod 4294967296) with (sq iss A). rewrite sq_eqz, !sq_leqb by lia.
    destruct (Z.eqb_spec u A), (Z.leb_spec u A), (Z.leb_spec A (zlen w)); cbn [negb andb]; f_equal; lia.
Qed.
(** Under those conditions: every byte accepted by send() and not acknowledged is still
    queued, with its contents, for (re)transmission.  Missing from the full claim: bare ACKs
    and FINs queued behind data (refuted below) and ACKs beyond SND.NXT (refuted below). *)
Theorem tcp_unacked_data_retained_partial : forall iss t w u, is_u32 iss -> good iss t w u ->
  exists queued_from, queued_from <= u /\ at_offset w queued_from (bytes (t_q t)) /\ queued_from + zlen (bytes (t_q t)) = zlen w.
Proof.
  intros iss t w u HU G. destruct (good_inv _ _ _ _ HU G) as (_ & HO & _). pose proof (reach_inv _ _ _ HU (good_reach _ _ _ _ G)) as ((pre & W & _) & _).
  exists (zlen pre). unfold head_off in HO. rewrite W, zlen_app in *. split; [lia|]. split; [exists pre, []; rewrite app_nil_r; split; reflexivity|reflexivity].
Qed.
Print Assumptions tcp_unacked_data_retained_partial.

(** Running a list of steps (for the concrete executions below). *)
Fixpoint exec (t : tcb) (w : list Z) (l : list act) : option (tcb * list Z * list obs) :=
  match l with
  | [] => Some (t, w, [])
  | a :: r => match step t a with
              | None => None
              | Some (t', os) => match exec t' (w ++ accepted a os) r with Some (t2, w2, os2) => Some (t2, w2, os ++ os2) | None => None end
              end
  end.
Lemma exec_reach iss : forall l t w t' w' os, exec t w l = Some (t', w', os) -> reach iss t w -> Forall ok_act l -> reach iss t' w'.
Proof.
  induction l as [|a l IH]; intros t w t' w' os E R F; cbn [exec] in E; [assert (t' = t /\ w' = w) as [-> ->] by (split; congruence); exact R|].
  destruct (step t a) as [[t1 o1]|] eqn:ES; [|discriminate]. destruct (exec t1 (w ++ accepted a o1) l) as [[[t2 w2] o2]|] eqn:EX; [|discriminate]. assert (t' = t2 /\ w' = w2) as [-> ->] by (split; congruence).
  eapply IH; [exact EX| |exact (Forall_inv_tail F)]. eapply reach_step; [exact R|exact (Forall_inv F)|exact ES].
Qed.
Definition mk0 (rwnd cwnd : Z) : tcb := mkSnd [] 1000 1000 0 rwnd cwnd 32768 0 true [] false 0 0 false 0 0 rtt0 TNone false false rwnd CEst 1000 5000.
Lemma mk0_fresh r c : fresh 1000 (mk0 r c). Proof. unfold fresh, is_u32. cbn. repeat split; lia. Qed.
Definition data (n : nat) (x : Z) : list Z := map (fun i => (x + Z.of_nat i) mod 256) (seq 0 n).

(** The same for executions of [good], with the side conditions checked. *)
Inductive gact := G (a : act) | GA (A win : Z).
Definition is_nil (l : list Z) : bool := match l with [] => true | _ => false end.
Definition gok (t : tcb) (a : act) : bool :=
  match a with
  | ASend _ cap _ => cap <=? 65535
  | AAck _ => false
  | AEmpty true | AClose true | ARto true _ => is_nil (bytes (t_q t))
  | _ => true
  end.
Fixpoint gexec (iss : Z) (t : tcb) (w : list Z) (u : Z) (l : list gact) : option (tcb * list Z * Z * list obs) :=
  match l with
  | [] => Some (t, w, u, [])
  | G a :: r => if gok t a then match step t a with
      | Some (t', os) => if zlen (bytes (t_q t')) <=? 268435456 then match gexec iss t' (w ++ accepted a os) u r with Some (t2, w2, u2, os2) => Some (t2, w2, u2, os ++ os2) | None => None end else None
      | None => None end else None
  | GA A win :: r => if (u - 268435456 <=? A) && (A <=? zlen w) then match step t (AAck (mkAck ((iss + A) mod 4294967296) win 0 [] None)) with
      | Some (t', os) => match gexec iss t' w (Z.max u A) r with Some (t2, w2, u2, os2) => Some (t2, w2, u2, os ++ os2) | None => None end
      | None => None end else None
  end.
Lemma gexec_good iss : forall l t w u t' w' u' os, gexec iss t w u l = Some (t', w', u', os) -> good iss t w u -> good iss t' w' u'.
Proof.
  induction l as [|[a|A win] l IH]; intros t w u t' w' u' os E H; cbn [gexec] in E.
  - assert (t' = t /\ w' = w /\ u' = u) as (-> & -> & ->) by (repeat split; congruence). exact H.
  - destruct (gok t a) eqn:GO; [|discriminate]. destruct (step t a) as [[t1 o1]|] eqn:ES; [|discriminate]. destruct (Z.leb_spec (zlen (bytes (t_q t1))) 268435456); [|discriminate].
    destruct (gexec iss t1 (w ++ accepted a o1) u l) as [[[[t2 w2] u2] o2]|] eqn:EX; [|discriminate]. assert (t' = t2 /\ w' = w2 /\ u' = u2) as (-> & -> & ->) by (repeat split; congruence).
    eapply IH; [exact EX|]. eapply good_step; [exact H| | |assumption|exact ES].
    + destruct a; cbn in *; try exact I; [lia|discriminate].
    + assert (NI : is_nil (bytes (t_q t)) = true -> bytes (t_q t) = []) by (destruct (bytes (t_q t)); [reflexivity|discriminate]). destruct a; cbn in *; try exact I; try discriminate; destruct room; auto.
  - destruct ((u - 268435456 <=? A) && (A <=? zlen w)) eqn:EB; [|discriminate]. destruct (step t _) as [[t1 o1]|] eqn:ES; [|discriminate].
    destruct (gexec iss t1 w (Z.max u A) l) as [[[[t2 w2] u2] o2]|] eqn:EX; [|discriminate]. assert (t' = t2 /\ w' = w2 /\ u' = u2) as (-> & -> & ->) by (repeat split; congruence).
    eapply IH; [exact EX|]. eapply (good_ack iss t w u _ A t1 o1); [exact H| |lia|exact ES]; reflexivity.
Qed.
Definition getg (x : option (tcb * list Z * Z * list obs)) : tcb * list Z * Z * list obs := match x with Some y => y | None => (mk0 0 0, [], 0, []) end.
Lemma getg_good l r c : match gexec 1000 (mk0 r c) [] 0 l with Some _ => true | None => false end = true ->
  let '(t, w, u, _) := getg (gexec 1000 (mk0 r c) [] 0 l) in good 1000 t w u.
Proof.
  destruct (gexec 1000 (mk0 r c) [] 0 l) as [[[[t w] u] os]|] eqn:E; [|discriminate]. intros _. cbn [getg]. eapply gexec_good; [exact E|apply good_init, mk0_fresh].
Qed.
(** Non-vacuity: two segments sent, the first acknowledged, the second retransmitted after a
    timeout. *)
Definition run1 : list gact := [G (AEmpty true); G (AFlush [true]); G (ASend (data (Z.to_nat 1500) 7) 1000 [5000; 4000]); G (AFlush [true; true]); GA 1000 4000; G (ARto false false); G (AFlush [true])].
Example good_run_exists : exists t w, good 1000 t w 1000 /\ zlen w = 1500 /\ zlen (bytes (t_q t)) = 500 /\ t_una t = 2000 /\ exists s, t_q t = [s] /\ length (s_txs s) = 2%nat.
Proof.
  pose proof (getg_good run1 4000 4000 ltac:(vm_compute; reflexivity)) as H.
  exists (fst (fst (fst (getg (gexec 1000 (mk0 4000 4000) [] 0 run1))))), (snd (fst (fst (getg (gexec 1000 (mk0 4000 4000) [] 0 run1))))).
  destruct (getg (gexec 1000 (mk0 4000 4000) [] 0 run1)) as [[[t w] u] os] eqn:E. cbn [fst snd].
  assert (EU : u = snd (fst (getg (gexec 1000 (mk0 4000 4000) [] 0 run1)))) by (rewrite E; reflexivity). 
  assert (ET : t = fst (fst (fst (getg (gexec 1000 (mk0 4000 4000) [] 0 run1))))) by (rewrite E; reflexivity).
  assert (EW : w = snd (fst (fst (getg (gexec 1000 (mk0 4000 4000) [] 0 run1))))) by (rewrite E; reflexivity). clear E.
  vm_compute in EU. split; [subst u; exact H|]. rewrite EW, ET. split; [vm_compute; reflexivity|]. split; [vm_compute; reflexivity|]. split; [vm_compute; reflexivity|].
  exists (hd (new_seg 0 []) (t_q (fst (fst (fst (getg (gexec 1000 (mk0 4000 4000) [] 0 run1))))))). split; vm_compute; reflexivity.
Qed.

(** The full claim is false of the code: an application writes 100 bytes, they are sent,
    then an ACK becomes due and is sent; wolfip.c:11411 pops the head of the transmit queue
    -- the unacknowledged data segment -- instead of the ACK.  No acknowledgement was ever
    received, yet the data can no longer be retransmitted. *)
Definition run2 : list act := [ASend (data (Z.to_nat 100) 7) 1000 [5000]; AFlush [true]; AEmpty true; AFlush [true]].
Definition getx (x : option (tcb * list Z * list obs)) : tcb * list Z * list obs := match x with Some y => y | None => (mk0 0 0, [], []) end.
Lemma getx_reach l r c : match exec (mk0 r c) [] l with Some _ => true | None => false end = true -> Forall ok_act l ->
  reach 1000 (fst (fst (getx (exec (mk0 r c) [] l)))) (snd (fst (getx (exec (mk0 r c) [] l)))).
Proof. destruct (exec (mk0 r c) [] l) as [[[t w] os]|] eqn:E; [|discriminate]. intros _ F. cbn [getx fst snd]. eapply exec_reach; [exact E|apply reach_init, mk0_fresh|exact F]. Qed.
Theorem tcp_unacked_data_retained_refuted : exists iss t w, is_u32 iss /\ reach iss t w /\
  t_una t = iss (* nothing acknowledged *) /\ zlen w = 100 /\ Forall (fun s => s_pay s = []) (t_q t) /\ persist_probe t = None /\
  (forall oks, snd (flush_tcp_tx t oks) = []) /\ tcp_rto_cb t true false <> None /\ (forall oks t', tcp_rto_cb t true false = Some t' -> snd (flush_tcp_tx t' oks) = []).
Proof.
  exists 1000, (fst (fst (getx (exec (mk0 4000 4000) [] run2)))), (snd (fst (getx (exec (mk0 4000 4000) [] run2)))).
  split; [unfold is_u32; lia|]. split; [apply getx_reach; [vm_compute; reflexivity|repeat constructor; cbn; unfold is_u32; lia]|].
  set (t := fst (fst (getx (exec (mk0 4000 4000) [] run2)))). set (w := snd (fst (getx (exec (mk0 4000 4000) [] run2)))).
  assert (Q1 : exists x, t_q t = [x] /\ s_sent x = true /\ s_pay x = []) by (exists (hd (new_seg 0 []) (t_q t)); split; [|split]; vm_compute; reflexivity).
  assert (FL : forall u oks, t_q u = t_q t -> snd (flush_tcp_tx u oks) = []).
  { intros u oks E. unfold flush_tcp_tx. destruct (resync_frame u) as (R & _). destruct Q1 as (x & Q1 & Q2 & _). change SEND_BUDGET with (S (S (Z.to_nat 2048))). generalize (Z.to_nat 2048) as f. intros f. cbn [flush_loop]. rewrite R, E, Q1. cbn [cur_seg nth_error]. rewrite Q2. cbn [flush_loop]. rewrite ?R, ?E, ?Q1. cbn [cur_seg nth_error]. reflexivity. }
  split; [vm_compute; reflexivity|]. split; [vm_compute; reflexivity|]. split; [destruct Q1 as (x & -> & _ & Q); constructor; [exact Q|constructor]|]. split; [vm_compute; reflexivity|].
  split; [intros oks; apply FL; reflexivity|]. split; [vm_compute; discriminate|]. intros oks t' E. apply FL.
  assert (X : option_map t_q (tcp_rto_cb t true false) = Some (t_q t)) by (vm_compute; reflexivity). rewrite E in X. cbn in X. congruence.
Qed.
Print Assumptions tcp_unacked_data_retained_refuted.

(** An ACK for data never sent (beyond SND.NXT) is not ignored either: it frees the
    transmitted segments although it does not advance SND.UNA. *)
Definition run3 : list act := [ASend (data (Z.to_nat 100) 7) 1000 [5000]; AFlush [true]; AAck (mkAck 5000 4000 0 [] None)].
Theorem tcp_ack_of_unsent_data_ignored_refuted : exists iss t w k t' os, is_u32 iss /\ reach iss t w /\ zlen w = 100 /\ a_ack k = (iss + 4000) mod 4294967296 /\
  step t (AAck k) = Some (t', os) /\ t_una t' = iss /\ zlen (bytes (t_q t)) = 100 /\ bytes (t_q t') = [].
Proof.
  set (l := firstn 2 run3). exists 1000, (fst (fst (getx (exec (mk0 4000 4000) [] l)))), (snd (fst (getx (exec (mk0 4000 4000) [] l)))), (mkAck 5000 4000 0 [] None).
  set (t := fst (fst (getx (exec (mk0 4000 4000) [] l)))).
  assert (R : reach 1000 t (snd (fst (getx (exec (mk0 4000 4000) [] l))))) by (apply getx_reach; [vm_compute; reflexivity|repeat constructor; cbn; unfold is_u32; lia]).
  exists (match step t (AAck (mkAck 5000 4000 0 [] None)) with Some (x, _) => x | None => t end), (match step t (AAck (mkAck 5000 4000 0 [] None)) with Some (_, x) => x | None => [] end).
  split; [unfold is_u32; lia|]. split; [exact R|]. split; [vm_compute; reflexivity|]. split; [reflexivity|]. split; [vm_compute; reflexivity|]. split; [vm_compute; reflexivity|]. split; vm_compute; reflexivity.
Qed.
Print Assumptions tcp_ack_of_unsent_data_ignored_refuted.

(** ** C44: the peer's window (and the congestion window) bounds new data *)
Lemma sent_bytes_cons s q : sent_bytes (s :: q) = (if s_sent s then slen s else 0) + sent_bytes q. Proof. reflexivity. Qed.
Lemma sent_bytes_nonneg q : 0 <= sent_bytes q.
Proof. induction q as [|s q IH]; [cbv; discriminate|]. rewrite sent_bytes_cons. unfold slen. pose proof (zlen_nonneg (s_pay s)). destruct (s_sent s); lia. Qed.
Lemma sent_prefix_bytes : forall i q, Forall (fun s => s_sent s = true) (firstn i q) -> zlen (bytes (firstn i q)) <= sent_bytes q.
Proof.
  induction i as [|i IH]; intros q H.
  - cbn [firstn]. change (zlen (bytes [])) with 0. apply sent_bytes_nonneg.
  - destruct q as [|s q]; [cbn; lia|]. cbn [firstn] in *. specialize (IH q (Forall_inv_tail H)). pose proof (Forall_inv H) as H0. cbn in H0. unfold bytes in *. rewrite sent_bytes_cons. cbn [map concat]. rewrite zlen_app, H0. fold (slen s). lia.
Qed.
Lemma sent_bytes_app a b : sent_bytes (a ++ b) = sent_bytes a + sent_bytes b.
Proof. induction a as [|s a IH]; [reflexivity|]. cbn [app]. rewrite !sent_bytes_cons, IH. lia. Qed.
Lemma set_nth_split {A} : forall i (v x : A) l, nth_error l i = Some x -> set_nth i v l = firstn i l ++ v :: skipn (S i) l /\ l = firstn i l ++ x :: skipn (S i) l.
Proof.
  induction i as [|i IH]; intros v x [|y l] E; cbn in E; try discriminate; [assert (y = x) by congruence; subst; split; reflexivity|].
  destruct (IH v x l E) as [A1 A2]. cbn [set_nth firstn skipn app]. split; [f_equal; exact A1|f_equal; exact A2].
Qed.
Definition fits (iss n lim : Z) (x : txlog) : Prop :=
  x_retr x = false -> x_pay x <> [] -> exists o, x_seq x = sq iss o /\ n <= o /\ o + zlen (x_pay x) <= n + lim.
Lemma noretr_find : forall l i, Forall (fun s => s_retr s = false) l -> find_retr l i = None.
Proof. induction l as [|s l IH]; intros i H; cbn; [reflexivity|]. pose proof (Forall_inv H) as H0. cbn in H0. rewrite H0. cbn. apply IH. exact (Forall_inv_tail H). Qed.
Lemma flush_window iss n wnd : forall f t c oks t' o e d, flush_loop f t c oks = (t', o) -> t_q t = e ++ d -> shp e d -> start_ok c e ->
  lay iss n d -> Forall (fun s => s_retr s = false) (t_q t) -> sent_bytes (t_q t) <= t_infl t -> wnd = Z.min (t_cwnd t) (t_rwnd t) ->
  (match c with At i => Forall (fun s => s_sent s = true) (firstn i (t_q t)) | _ => True end) -> Forall (fits iss n wnd) o.
Proof.
  induction f as [|f IH]; intros t c oks t' o e d E EQ (HE & HD) HS HL NR HI HW HC; cbn [flush_loop] in E; [assert (o = []) by congruence; subst o; constructor|].
  destruct (cur_seg (t_q t) c) as [s|] eqn:EC; [|assert (o = []) by congruence; subst o; constructor].
  destruct c as [i|h]; cbn [cur_seg start_ok] in *.
  2:{ assert (h = s) by congruence. subst h. rewrite HS in E. eapply IH; try eassumption; [split; assumption|left; reflexivity|constructor]. }
  destruct (s_sent s) eqn:ES.
  { eapply IH; try eassumption; [split; assumption| |].
    - right. destruct HS as [-> |HS]; [|exact HS]. destruct e as [|x e]; [reflexivity|]. rewrite EQ in EC. cbn in EC. assert (x = s) by congruence. subst x. apply Forall_inv in HE. destruct HE. congruence.
    - destruct (set_nth_split i s s _ EC) as [_ X]. rewrite X. replace (S i) with (length (firstn i (t_q t)) + 1)%nat by (rewrite firstn_length; assert (i < length (t_q t))%nat by (apply nth_error_Some; congruence); lia).
      rewrite firstn_app_2. cbn [firstn]. apply Forall_app. split; [exact HC|constructor; [exact ES|constructor]]. }
  destruct oks as [|[|] oks']; try (assert (o = []) by congruence; subst o; constructor).
  cbn zeta in E. assert (RS : s_retr s = false) by (rewrite Forall_forall in NR; apply NR; eapply nth_error_In; exact EC). rewrite RS in E. cbn [orb] in E. destruct e as [|x e0].
  - cbn [app] in EQ. assert (NP : s_pay s <> []) by (rewrite Forall_forall in HD; apply HD; rewrite <- EQ; eapply nth_error_In; exact EC).
    assert (Z0 : (slen s =? 0) = false) by (apply Z.eqb_neq; intros X; apply NP, slen_zero, X). rewrite Z0 in E. cbn [orb] in E. rewrite <- HW in E.
    destruct ((t_infl t <? wnd) && (slen s <=? wnd - t_infl t)) eqn:EG.
    2:{ rewrite noretr_find in E; [assert (o = []) by congruence; subst o; constructor|]. rewrite Forall_forall in NR |- *. intros y Iy. apply NR. rewrite <- (firstn_skipn i (t_q t)). apply in_or_app. right. exact Iy. }
    destruct (set_nth_split i (sent_seg (t_now t) s) s _ EC) as [X1 X2].
    assert (LI : length (firstn i (t_q t)) = i) by (rewrite firstn_length; assert (i < length (t_q t))%nat by (apply nth_error_Some; congruence); lia).
    match type of E with (let '(_, _) := flush_loop f ?u ?c ?k in _) = _ => set (t3 := u) in *; destruct (flush_loop f t3 c k) as [t4 o2] eqn:EF end.
    assert (o = mkTx (s_seq s) (s_pay s) false :: o2) by congruence. subst o. constructor.
    + intros _ _. cbn [x_seq x_pay]. exists (n + zlen (bytes (firstn i (t_q t)))). rewrite <- EQ, X2 in HL. apply lay_app in HL. destruct HL as [_ [HL _]]. split; [exact HL|].
      pose proof (sent_prefix_bytes i _ HC). pose proof (zlen_nonneg (bytes (firstn i (t_q t)))). fold (slen s). lia.
    + assert (T3q : t_q t3 = firstn i (t_q t) ++ sent_seg (t_now t) s :: skipn (S i) (t_q t)) by (unfold t3; cbn; exact X1).
      assert (CC : cores (t_q t3) = cores d) by (rewrite T3q, <- EQ; rewrite X2 at 3; unfold cores; rewrite !map_app; reflexivity).
      refine (IH t3 (At (S i)) oks' _ _ [] (t_q t3) EF eq_refl _ (or_intror eq_refl) _ _ _ HW _).
      * split; [constructor|]. eapply nonempty_cores; [symmetry; exact CC|exact HD].
      * eapply lay_cores; [symmetry; exact CC|exact HL].
      * rewrite T3q. rewrite X2 in NR. apply Forall_app in NR. destruct NR as [N1 N2]. apply Forall_app. split; [exact N1|]. constructor; [reflexivity|exact (Forall_inv_tail N2)].
      * rewrite T3q. change (t_infl t3) with (t_infl t + slen s). rewrite X2 in HI. rewrite sent_bytes_app, sent_bytes_cons in *. rewrite ES in HI. cbn [sent_seg s_sent]. change (slen (sent_seg (t_now t) s)) with (slen s). lia.
      * rewrite T3q. replace (S i) with (length (firstn i (t_q t)) + 1)%nat by lia. rewrite firstn_app_2. cbn [firstn]. apply Forall_app. split; [exact HC|constructor; [reflexivity|constructor]].
  - destruct HS as [-> |HS]; [|discriminate]. rewrite EQ in EC. cbn in EC. assert (x = s) by congruence. subst x. pose proof (Forall_inv HE) as [P0 _]. pose proof P0 as P1. apply slen_zero in P0. rewrite P0 in E. cbn [Z.eqb orb] in E.
    cbn [upd_q t_q] in E. rewrite EQ in E. cbn [app set_nth] in E.
    match type of E with (let '(_, _) := flush_loop f ?u _ _ in _) = _ => set (t3 := u) in * end.
    destruct (flush_loop f t3 (Popped (sent_seg (t_now t) s)) oks') as [t4 o2] eqn:EF. assert (o = mkTx (s_seq s) (s_pay s) false :: o2) by congruence. subst o.
    constructor; [intros _ X; cbn in X; congruence|]. rewrite EQ in NR, HI. cbn [app] in *.
    refine (IH t3 _ oks' _ _ e0 d EF eq_refl _ eq_refl HL _ _ HW I); [split; [exact (Forall_inv_tail HE)|exact HD]|exact (Forall_inv_tail NR)|].
    change (t_infl t3) with (t_infl t). change (t_q t3) with (e0 ++ d). rewrite sent_bytes_cons, ES in HI. exact HI.
Qed.
(** In orderly executions, while no retransmission is pending and no FIN was queued, new
    data is sent only inside the peer's advertised window (and the congestion window)
    counted from the highest acknowledged byte u.  Missing from the full claim: flushes with
    a retransmission pending (refuted below). *)
Theorem tcp_new_data_within_window_partial : forall iss t w u oks t' os x,
  is_u32 iss -> good iss t w u -> t_st t = CEst -> t_ctrl t = false -> Forall (fun s => s_retr s = false) (t_q t) ->
  step t (AFlush oks) = Some (t', os) -> In (OTx x) os -> x_pay x <> [] ->
  exists o, x_seq x = (iss + o) mod 4294967296 /\ o + zlen (x_pay x) <= u + Z.min (t_cwnd t) (t_rwnd t).
Proof.
  intros iss t w u oks t' os x HU HG HS HC NR E IX NP. destruct (good_inv _ _ _ _ HU HG) as ((e & d & EQ & SH) & HO & _). pose proof (reach_inv _ _ _ HU (good_reach _ _ _ _ HG)) as ((pre & W & L) & _ & _ & K & _).
  cbn [step] in E. destruct (flush_tcp_tx t oks) as [t1 o] eqn:EF. assert (os = map OTx o) by congruence. subst os. apply in_map_iff in IX. destruct IX as (y & Y & Iy). assert (y = x) by congruence. subst y.
  unfold flush_tcp_tx in EF. destruct (resync_frame t) as (R1 & R2 & R3).
  assert (RI : t_infl (resync t) = sent_bytes (t_q t) /\ t_cwnd (resync t) = t_cwnd t /\ t_rwnd (resync t) = t_rwnd t).
  { unfold resync, ctrl_needs. rewrite HS, HC. cbn [orb]. cbn zeta. destruct (t_special _); [repeat split|]. destruct (t_tmr _); destruct (0 <? _); repeat split. }
  destruct RI as (I1 & I2 & I3).
  rewrite EQ in L. apply lay_app in L. destruct L as [_ L].
  assert (BE : bytes e = []) by (destruct SH as [HE _]; clear - HE; induction HE as [|s e [P0 _] H IH]; [reflexivity|]; unfold bytes in *; cbn; rewrite P0; exact IH). rewrite BE in L. change (zlen (@nil Z)) with 0 in L. rewrite Z.add_0_r in L.
  assert (XR : x_retr x = false).
  { assert (RR : forall f t c oks t' o, flush_loop f t c oks = (t', o) -> Forall (fun s => s_retr s = false) (t_q t) -> (match c with Popped h => s_retr h = false | _ => True end) -> Forall (fun x => x_retr x = false) o).
    { clear. induction f as [|f IH]; intros t c oks t' o E NR CR; cbn [flush_loop] in E; [assert (o = []) by congruence; subst; constructor|]. destruct (cur_seg (t_q t) c) as [s|] eqn:EC; [|assert (o = []) by congruence; subst; constructor].
      assert (RS : s_retr s = false) by (destruct c as [i|h]; cbn in EC; [rewrite Forall_forall in NR; apply NR; eapply nth_error_In; exact EC|assert (h = s) by congruence; subst; exact CR]).
      destruct (s_sent s); [eapply IH; [exact E|exact NR|destruct c; exact I]|]. destruct oks as [|[|] oks']; try (assert (o = []) by congruence; subst; constructor). cbn zeta in E. rewrite RS in E. cbn [orb] in E.
      set (t1 := match c with At i => _ | Popped _ => t end) in *. assert (N1 : Forall (fun s => s_retr s = false) (t_q t1)) by (unfold t1; destruct c; [cbn; apply Forall_set_nth; [exact NR|reflexivity]|exact NR]).
      destruct ((slen s =? 0) || _).
      - destruct (slen s =? 0).
        + destruct (t_q t1) as [|h r] eqn:Q1; [assert (o = [mkTx (s_seq s) (s_pay s) false]) by congruence; subst; constructor; [reflexivity|constructor]|].
          destruct (flush_loop f (upd_q t1 r) (Popped h) oks') as [t2 o2] eqn:EF. assert (o = mkTx (s_seq s) (s_pay s) false :: o2) by congruence. subst o. constructor; [reflexivity|]. eapply IH; [exact EF|exact (Forall_inv_tail N1)|exact (Forall_inv N1)].
        + match type of E with (let '(_, _) := flush_loop f ?u ?c ?k in _) = _ => destruct (flush_loop f u c k) as [t4 o2] eqn:EF end. assert (o = mkTx (s_seq s) (s_pay s) false :: o2) by congruence. subst o. constructor; [reflexivity|]. eapply IH; [exact EF|exact N1|destruct c; exact I].
      - rewrite noretr_find in E; [assert (o = []) by congruence; subst; constructor|]. rewrite Forall_forall in NR |- *. intros y Iy. apply NR. rewrite <- (firstn_skipn (match c with At i => i | Popped _ => O end) (t_q t)). apply in_or_app. right. exact Iy. }
    pose proof (RR _ _ _ _ _ _ EF ltac:(rewrite R1; exact NR) I) as X. rewrite Forall_forall in X. apply X. exact Iy. }
  pose proof (flush_window iss (zlen pre) (Z.min (t_cwnd t) (t_rwnd t)) _ _ _ _ _ _ e d EF ltac:(congruence) SH ltac:(left; reflexivity) L ltac:(rewrite R1; exact NR) ltac:(rewrite R1, I1; lia) ltac:(rewrite I2, I3; reflexivity) ltac:(constructor)) as FW.
  rewrite Forall_forall in FW. destruct (FW x Iy XR NP) as (of & F1 & F2 & F3). exists of. split; [exact F1|]. unfold head_off in HO. rewrite W, zlen_app in HO. lia.
Qed.
Print Assumptions tcp_new_data_within_window_partial.
(** Non-vacuity: 3 of 4 queued segments fit in a window of 3000. *)
Example window_case : exists t w os, good 1000 t w 0 /\ t_st t = CEst /\ t_ctrl t = false /\ Forall (fun s => s_retr s = false) (t_q t) /\ zlen w = 4000 /\ snd (flush_tcp_tx t (repeat true 10)) = os /\ length os = 3%nat.
Proof.
  set (l := [G (ASend (data (Z.to_nat 4000) 7) 1000 [5000; 4000; 3000; 2000])]). pose proof (getg_good l 3000 10000 ltac:(vm_compute; reflexivity)) as H.
  exists (fst (fst (fst (getg (gexec 1000 (mk0 3000 10000) [] 0 l))))), (snd (fst (fst (getg (gexec 1000 (mk0 3000 10000) [] 0 l))))), (snd (flush_tcp_tx (fst (fst (fst (getg (gexec 1000 (mk0 3000 10000) [] 0 l))))) (repeat true 10))).
  destruct (getg (gexec 1000 (mk0 3000 10000) [] 0 l)) as [[[t w] u] os] eqn:E. cbn [fst snd].
  assert (EU : u = snd (fst (getg (gexec 1000 (mk0 3000 10000) [] 0 l)))) by (rewrite E; reflexivity). assert (ET : t = fst (fst (fst (getg (gexec 1000 (mk0 3000 10000) [] 0 l))))) by (rewrite E; reflexivity).
  assert (EW : w = snd (fst (fst (getg (gexec 1000 (mk0 3000 10000) [] 0 l))))) by (rewrite E; reflexivity). clear E. vm_compute in EU. split; [subst u; exact H|]. rewrite EW, ET.
  split; [vm_compute; reflexivity|]. split; [vm_compute; reflexivity|]. split; [vm_compute; repeat constructor|]. split; [vm_compute; reflexivity|]. split; [reflexivity|vm_compute; reflexivity].
Qed.
(** With a retransmission pending the limit is exceeded: peer window 3000, three segments of
    1000 in flight, three duplicate ACKs; the flush retransmits the first one and also sends
    a fourth, new segment covering bytes 3000-3999 although byte 0 is not acknowledged. *)
Definition dupack : act := AAck (mkAck 1000 3000 0 [] None).
Definition run4 : list act := [ASend (data (Z.to_nat 4000) 7) 1000 [5000; 4000; 3000; 2000]; AFlush (repeat true 10); dupack; dupack; dupack].
Theorem tcp_new_data_within_window_refuted : exists iss t w oks t' os x, is_u32 iss /\ reach iss t w /\ t_una t = iss /\ t_rwnd t = 3000 /\
  step t (AFlush oks) = Some (t', os) /\ In (OTx x) os /\ x_retr x = false /\ x_seq x = (iss + 3000) mod 4294967296 /\ zlen (x_pay x) = 1000.
Proof.
  set (t := fst (fst (getx (exec (mk0 3000 10000) [] run4)))).
  exists 1000, t, (snd (fst (getx (exec (mk0 3000 10000) [] run4)))), (repeat true 10), (fst (flush_tcp_tx t (repeat true 10))), (map OTx (snd (flush_tcp_tx t (repeat true 10)))), (nth 1 (snd (flush_tcp_tx t (repeat true 10))) (mkTx 0 [] true)).
  split; [unfold is_u32; lia|]. split; [apply getx_reach; [vm_compute; reflexivity|repeat constructor; cbn; unfold is_u32; lia]|]. split; [vm_compute; reflexivity|]. split; [vm_compute; reflexivity|].
  split; [cbn [step]; destruct (flush_tcp_tx t (repeat true 10)); reflexivity|]. split; [apply in_map; apply nth_In; vm_compute; lia|]. split; [vm_compute; reflexivity|]. split; vm_compute; reflexivity.
Qed.
Print Assumptions tcp_new_data_within_window_refuted.

(** ** C45: a timeout leads to retransmission, and a timer runs while data is in flight *)
Lemma find_retr_spec : forall l i k s, nth_error l k = Some s -> s_retr s = true -> s_sent s = false -> s_pay s <> [] ->
  exists j, find_retr l i = Some j /\ (i <= j <= i + k)%nat /\ exists s', nth_error l (j - i) = Some s' /\ s_retr s' = true.
Proof.
  induction l as [|x l IH]; intros i [|k] s E R SS P; cbn in E; try discriminate.
  - assert (x = s) by congruence. subst x. cbn [find_retr]. rewrite R, SS. assert (slen s =? 0 = false) as -> by (apply Z.eqb_neq; intros X; apply P, slen_zero, X). cbn. exists i. split; [reflexivity|]. split; [lia|]. exists s. rewrite Nat.sub_diag. split; [reflexivity|exact R].
  - cbn [find_retr]. destruct (s_retr x && negb (s_sent x) && negb (slen x =? 0)) eqn:EX.
    + exists i. split; [reflexivity|]. split; [lia|]. exists x. rewrite Nat.sub_diag. split; [reflexivity|]. destruct (s_retr x); [reflexivity|discriminate].
    + destruct (IH (S i) k s E R SS P) as (j & J1 & J2 & s' & J3 & J4). exists j. split; [exact J1|]. split; [lia|]. exists s'. replace (j - i)%nat with (S (j - S i)) by lia. split; [exact J3|exact J4].
Qed.
Lemma flush_retransmits : forall f t c oks t' o e d k s, flush_loop f t c oks = (t', o) -> t_q t = e ++ d -> shp e d -> start_ok c e ->
  nth_error d k = Some s -> s_retr s = true -> s_sent s = false -> Forall (fun b => b = true) oks -> (f <= length oks)%nat ->
  (match c with At i => (i <= k)%nat /\ (2 * length e + (k - i) + 1 <= f)%nat | Popped _ => (2 * length e + k + 2 <= f)%nat end) ->
  In (mkTx (s_seq s) (s_pay s) true) o.
Proof.
  induction f as [|f IH]; intros t c oks t' o e d k s E EQ (HE & HD) HS HK HR HN HO HF HM; [destruct c; lia|]. cbn [flush_loop] in E.
  destruct c as [i|h]; cbn [cur_seg start_ok] in *.
  2:{ rewrite HS in E. eapply (IH _ (At 0)); try eassumption; [split; assumption|left; reflexivity|lia|lia]. }
  destruct HM as [HM1 HM2].
  destruct oks as [|ok oks']; [cbn in HF; lia|]. pose proof (Forall_inv HO) as OK0. cbn in OK0. subst ok. cbn in HF.
  destruct e as [|x e0].
  - cbn [app length] in *. destruct (nth_error (t_q t) i) as [s0|] eqn:EC.
    2:{ exfalso. apply nth_error_None in EC. assert (k < length d)%nat by (apply nth_error_Some; congruence). rewrite EQ in EC. lia. }
    rewrite EQ in EC. destruct (s_sent s0) eqn:ES.
    { assert (i <> k) by (intros ->; congruence). eapply (IH t (At (S i)) (true :: oks') t' o [] d k s); try eassumption; [split; assumption|right; reflexivity|cbn; lia|cbn; lia]. }
    assert (NP : s_pay s0 <> []) by (rewrite Forall_forall in HD; apply HD; eapply nth_error_In; exact EC).
    assert (Z0 : (slen s0 =? 0) = false) by (apply Z.eqb_neq; intros X; apply NP, slen_zero, X). cbn zeta in E. rewrite Z0 in E. rewrite orb_false_r in E.
    destruct (s_retr s0 || _) eqn:EG.
    + match type of E with (let '(_, _) := flush_loop f ?u ?c ?k in _) = _ => set (t3 := u) in *; destruct (flush_loop f t3 c k) as [t4 o2] eqn:EF end.
      assert (o = mkTx (s_seq s0) (s_pay s0) (s_retr s0) :: o2) by congruence. subst o. destruct (Nat.eq_dec i k) as [-> |NK].
      * left. assert (s0 = s) by congruence. subst s0. rewrite HR. reflexivity.
      * right. assert (T3 : t_q t3 = [] ++ set_nth i (sent_seg (t_now t) s0) d) by (unfold t3; destruct (s_retr s0); cbn; rewrite EQ; reflexivity).
        assert (CC : cores (set_nth i (sent_seg (t_now t) s0) d) = cores d) by (eapply cores_set_nth; [exact EC|reflexivity]).
        refine (IH t3 (At (S i)) oks' _ _ [] _ k s EF T3 _ (or_intror eq_refl) _ HR HN (Forall_inv_tail HO) _ _); [split; [constructor|eapply nonempty_cores; [symmetry; exact CC|exact HD]]|rewrite set_nth_other by exact NK; exact HK|lia|cbn; lia].
    + apply orb_false_iff in EG. destruct EG as [EG1 _]. assert (NK : i <> k) by (intros ->; congruence).
      assert (KS : nth_error (skipn i (t_q t)) (k - i) = Some s) by (rewrite EQ, nth_error_skipn; replace (i + (k - i))%nat with k by lia; exact HK).
      assert (NPs : s_pay s <> []) by (rewrite Forall_forall in HD; apply HD; eapply nth_error_In; exact HK).
      destruct (find_retr_spec _ i _ _ KS HR HN NPs) as (j & J1 & J2 & s' & J3 & J4). rewrite J1 in E.
      assert (j <> i) by (intros ->; rewrite Nat.sub_diag in J3; rewrite EQ, nth_error_skipn, Nat.add_0_r, EC in J3; congruence).
      refine (IH t (At j) (true :: oks') t' o [] d k s E EQ (conj HE HD) (or_intror eq_refl) HK HR HN HO _ _); [cbn; lia|cbn; lia].
  - assert (i = O) by (destruct HS as [HS|HS]; [exact HS|discriminate]). subst i. rewrite EQ in E. cbn [nth_error app] in E. pose proof (Forall_inv HE) as [P0 SX]. rewrite SX in E. apply slen_zero in P0. cbn zeta in E. rewrite P0 in E. cbn [Z.eqb] in E. rewrite orb_true_r in E. cbn [orb] in E.
    cbn [upd_q t_q] in E. rewrite ?EQ in E. cbn [app set_nth] in E.
    match type of E with (let '(_, _) := flush_loop f ?u _ _ in _) = _ => set (t3 := u) in * end.
    destruct (flush_loop f t3 (Popped (sent_seg (t_now t) x)) oks') as [t4 o2] eqn:EF. assert (o = mkTx (s_seq x) (s_pay x) (s_retr x) :: o2) by congruence. subst o. right. cbn [length] in HM2.
    refine (IH t3 _ oks' _ _ e0 d k s EF eq_refl (conj (Forall_inv_tail HE) HD) eq_refl HK HR HN (Forall_inv_tail HO) _ _); lia.
Qed.
Lemma rto_scan_cover una : forall l i first k s, nth_error l k = Some s -> s_sent s = true -> s_pay s <> [] ->
  tcp_seq_leq (s_seq s) una = true -> tcp_seq_lt una (tcp_seq_inc (s_seq s) (slen s)) = true ->
  (forall j s', (j < k)%nat -> nth_error l j = Some s' -> s_pay s' <> [] -> tcp_seq_leq (s_seq s') una && tcp_seq_lt una (tcp_seq_inc (s_seq s') (slen s')) = false) ->
  exists first', rto_scan una l i first = (Some (i + k)%nat, false, first').
Proof.
  induction l as [|x l IH]; intros i first [|k] s E SS P C1 C2 HJ; cbn in E; try discriminate; cbn [rto_scan].
  - assert (x = s) by congruence. subst x. rewrite SS, C1, C2. assert (slen s =? 0 = false) as -> by (apply Z.eqb_neq; intros X; apply P, slen_zero, X). cbn [negb andb]. rewrite Nat.add_0_r. eexists. reflexivity.
  - assert (NC : negb (slen x =? 0) && tcp_seq_leq (s_seq x) una && tcp_seq_lt una (tcp_seq_inc (s_seq x) (slen x)) = false).
    { destruct (Z.eqb_spec (slen x) 0) as [X|X]; [reflexivity|]. cbn [negb andb]. apply (HJ O x); [lia|reflexivity|intros Y; apply X, slen_zero, Y]. }
    rewrite NC. replace (i + S k)%nat with (S i + k)%nat by lia. assert (HJ' : forall j s', (j < k)%nat -> nth_error l j = Some s' -> s_pay s' <> [] -> tcp_seq_leq (s_seq s') una && tcp_seq_lt una (tcp_seq_inc (s_seq s') (slen s')) = false) by (intros j s' H1 H2; apply (HJ (S j) s'); [lia|exact H2]).
    destruct (s_sent x); (eapply IH; eassumption).
Qed.
(** The segment holding stream offset u. *)
Lemma lay_find iss : forall d o u, lay iss o d -> Forall (fun s => s_pay s <> []) d -> o <= u < o + zlen (bytes d) ->
  exists k s p, nth_error d k = Some s /\ p = o + zlen (bytes (firstn k d)) /\ s_seq s = sq iss p /\ p <= u < p + slen s.
Proof.
  induction d as [|x d IH]; intros o u L F H; [change (zlen (bytes [])) with 0 in H; lia|]. cbn [lay] in L. destruct L as [L1 L2]. unfold bytes in H. cbn [map concat] in H. rewrite zlen_app in H. fold (slen x) (bytes d) in H.
  destruct (Z.ltb_spec u (o + slen x)).
  - exists O, x, o. cbn [firstn]. change (zlen (bytes [])) with 0. split; [reflexivity|]. split; [lia|]. split; [exact L1|lia].
  - destruct (IH (o + slen x) u L2 (Forall_inv_tail F) ltac:(lia)) as (k & s & p & A & B & C & D). exists (S k), s, p. split; [exact A|]. split; [|split; assumption]. cbn [firstn]. unfold bytes in *. cbn [map concat]. rewrite zlen_app. fold (slen x). lia.
Qed.
Lemma lay_nth iss : forall d o k s, lay iss o d -> nth_error d k = Some s -> s_seq s = sq iss (o + zlen (bytes (firstn k d))).
Proof.
  induction d as [|x d IH]; intros o [|k] s L E; cbn in E; try discriminate; cbn [lay] in L; destruct L as [L1 L2].
  - assert (x = s) by congruence. subst. cbn [firstn]. change (zlen (bytes [])) with 0. rewrite Z.add_0_r. exact L1.
  - rewrite (IH _ _ _ L2 E). cbn [firstn]. unfold bytes. cbn [map concat]. rewrite zlen_app. fold (slen x). f_equal. lia.
Qed.
Lemma bytes_firstn_le d k : zlen (bytes (firstn k d)) <= zlen (bytes d).
Proof. rewrite <- (firstn_skipn k d) at 2. rewrite bytes_app, zlen_app. pose proof (zlen_nonneg (bytes (skipn k d))). lia. Qed.
Lemma bytes_firstn_mono d : forall j k s, (j < k)%nat -> nth_error d j = Some s -> zlen (bytes (firstn j d)) + slen s <= zlen (bytes (firstn k d)).
Proof.
  induction d as [|x d IH]; intros [|j] [|k] s H E; cbn in E; try discriminate; try lia; cbn [firstn].
  - assert (x = s) by congruence. subst. unfold bytes. cbn [map concat]. rewrite zlen_app. fold (slen s). pose proof (zlen_nonneg (concat (map s_pay (firstn k d)))). change (zlen (@nil Z)) with 0. lia.
  - specialize (IH j k s ltac:(lia) E). unfold bytes in *. cbn [map concat]. rewrite !zlen_app. lia.
Qed.
(** In an orderly execution: let the retransmission timer fire in ESTABLISHED (or in
    FIN_WAIT_1 while data is outstanding) when the segment containing the first
    unacknowledged byte u has been sent.  Either the connection is given up (15 consecutive
    timeouts) or the next transmission opportunity retransmits a segment containing byte u. *)
Theorem tcp_timeout_retransmits_first_unacked : forall iss t w u room giveup,
  is_u32 iss -> good iss t w u -> u < zlen w -> (t_st t = CEst \/ t_st t = CFinWait1) -> ctrl_needs t = false -> t_ctrl t = false -> (length (t_q t) <= 1000)%nat ->
  (forall s, In s (t_q t) -> (exists p, s_seq s = (iss + p) mod 4294967296 /\ head_off w t <= p <= u /\ u < p + zlen (s_pay s)) -> s_sent s = true) ->
  match tcp_rto_cb t room giveup with
  | None => 15 <= t_backoff t
  | Some t1 => exists seq pay p, In (mkTx seq pay true) (snd (flush_tcp_tx t1 (repeat true SEND_BUDGET))) /\ seq = (iss + p) mod 4294967296 /\ p <= u < p + zlen pay /\ at_offset w p pay
  end.
Proof.
  intros iss t w u room giveup HU HG HW HS HC1 HC2 HLEN HSENT. destruct (good_inv _ _ _ _ HU HG) as ((e & d & EQ & HE & HD) & HO & UN & HB).
  pose proof (reach_inv _ _ _ HU (good_reach _ _ _ _ HG)) as (QI & _ & _ & K & SM). destruct QI as (pre & W & L). unfold head_off in *. rewrite W, zlen_app in HO, HW.
  assert (BE : bytes e = []) by (clear - HE; induction HE as [|s e [P0 _] H IH]; [reflexivity|]; unfold bytes in *; cbn; rewrite P0; exact IH).
  assert (BD : bytes (t_q t) = bytes d) by (rewrite EQ, bytes_app, BE; reflexivity). pose proof L as L0. rewrite EQ in L. apply lay_app in L. destruct L as [_ L]. rewrite BE in L. change (zlen (@nil Z)) with 0 in L. rewrite Z.add_0_r in L. rewrite BD in *.
  destruct (lay_find iss d (zlen pre) u L HD ltac:(lia)) as (k & s & p & F1 & F2 & F3 & F4).
  assert (NQ : nth_error (t_q t) (length e + k) = Some s) by (rewrite EQ, nth_error_app2 by lia; replace (length e + k - length e)%nat with k by lia; exact F1).
  assert (SS : s_sent s = true).
  { apply HSENT; [eapply nth_error_In; exact NQ|]. exists p. split; [exact F3|]. pose proof (zlen_nonneg (bytes (firstn k d))). rewrite W, zlen_app, ?BD. unfold slen in F4. split; lia. }
  assert (NP : s_pay s <> []) by (intros X; unfold slen in F4; rewrite X in F4; change (zlen (@nil Z)) with 0 in F4; lia).
  assert (LS : 0 < slen s <= 65535) by (unfold small in SM; rewrite Forall_forall in SM; split; [lia|apply SM; eapply nth_error_In; exact NQ]).
  assert (ALL : forall j sj, nth_error d j = Some sj -> tcp_seq_leq (s_seq sj) (sq iss u) && tcp_seq_lt (sq iss u) (tcp_seq_inc (s_seq sj) (slen sj)) = (zlen pre + zlen (bytes (firstn j d)) <=? u) && (u <? zlen pre + zlen (bytes (firstn j d)) + slen sj)).
  { intros j sj EJ. rewrite (lay_nth _ _ _ _ _ L EJ). assert (0 <= slen sj <= 65535) by (unfold small in SM; rewrite Forall_forall in SM; split; [unfold slen; apply zlen_nonneg|apply SM; rewrite EQ; apply in_or_app; right; eapply nth_error_In; exact EJ]).
    pose proof (bytes_firstn_le d j). pose proof (zlen_nonneg (bytes (firstn j d))). rewrite sq_inc by lia. rewrite sq_leqb, sq_ltb by lia. reflexivity. }
  pose proof (ALL k s F1) as AK. assert (XT : (zlen pre + zlen (bytes (firstn k d)) <=? u) && (u <? zlen pre + zlen (bytes (firstn k d)) + slen s) = true) by lia. rewrite XT in AK. apply andb_true_iff in AK. destruct AK as [AK1 AK2].
  rewrite <- UN in AK1, AK2.
  destruct (rto_scan_cover (t_una t) (t_q t) 0 None (length e + k) s NQ SS NP AK1 AK2) as (first' & RS).
  { intros j sj HJ EJ NPJ. rewrite EQ in EJ. destruct (Nat.ltb_spec j (length e)) as [LJ|LJ].
    - rewrite nth_error_app1 in EJ by exact LJ. apply nth_error_In in EJ. rewrite Forall_forall in HE. destruct (HE sj EJ). congruence.
    - rewrite nth_error_app2 in EJ by exact LJ. rewrite UN, (ALL _ _ EJ). pose proof (bytes_firstn_mono d (j - length e) k sj ltac:(lia) EJ). lia. }
  destruct (tcp_rto_cb t room giveup) as [t1|] eqn:ER; unfold tcp_rto_cb in ER; cbn zeta in ER; set (t0 := upd_tm t (t_backoff t) (t_rto t) TStale) in *;
    change (ctrl_needs t0) with (ctrl_needs t) in ER; change (t_ctrl t0) with (t_ctrl t) in ER; rewrite HC1, HC2 in ER; cbn [orb] in ER; change (rto_scan (t_una t0) (t_q t0) 0 None) with (rto_scan (t_una t) (t_q t) 0 None) in ER; rewrite RS in ER; change (t_st t0) with (t_st t) in ER; change (t_backoff t0) with (t_backoff t) in ER; cbn [Nat.add] in ER.
  - assert (T1 : t_q t1 = set_nth (length e + k) (mark_seg s) (t_q t) /\ t_ctrl t1 = false).
    { destruct HS as [HS|HS]; rewrite HS in ER; (destruct (RTO_MAX_BACKOFF <=? t_backoff t); [discriminate|]); apply some_inj in ER; subst t1; (split; [|exact HC2]); cbn [upd_tm upd_fr upd_cw upd_psack upd_infl upd_q t_q t0]; unfold upd_nth; rewrite NQ; reflexivity. }
    destruct T1 as [T1 T2]. exists (s_seq s), (s_pay s), p. split.
    + destruct (flush_tcp_tx t1 (repeat true SEND_BUDGET)) as [t2 o] eqn:EF. cbn [snd]. unfold flush_tcp_tx in EF. destruct (resync_frame t1) as (R1 & _).
      assert (Q1 : t_q (resync t1) = e ++ set_nth k (mark_seg s) d).
      { rewrite R1, T1, EQ. clear. induction e as [|x e IH]; [reflexivity|]. cbn. rewrite IH. reflexivity. }
      assert (LE : (length e + length d <= 1000)%nat) by (rewrite EQ, app_length in HLEN; exact HLEN). assert (LK : (k < length d)%nat) by (apply nth_error_Some; congruence).
      assert (CM : cores (set_nth k (mark_seg s) d) = cores d) by (eapply cores_set_nth; [exact F1|reflexivity]).
      change (In (mkTx (s_seq (mark_seg s)) (s_pay (mark_seg s)) true) o).
      refine (flush_retransmits _ _ _ _ _ _ e _ k (mark_seg s) EF Q1 (conj HE (nonempty_cores _ _ (eq_sym CM) HD)) (or_introl eq_refl) (set_nth_same _ _ _ LK) eq_refl eq_refl _ _ _).
      * apply Forall_forall. intros b Hb. apply repeat_spec in Hb. exact Hb.
      * rewrite repeat_length. lia.
      * split; [lia|]. change SEND_BUDGET with (Z.to_nat 2050). lia.
    + split; [exact F3|]. split; [exact F4|]. pose proof (nth_error_split d k F1) as (a & b & D1 & D2). exists (pre ++ bytes a), (bytes b). rewrite W, ?BD, D1, bytes_app. cbn [app]. split; [unfold bytes; cbn [map concat]; rewrite <- !app_assoc; reflexivity|].
      rewrite zlen_app, F2, D1, firstn_app. rewrite <- D2, firstn_all, Nat.sub_diag. cbn [firstn]. rewrite app_nil_r. reflexivity.
  - destruct HS as [HS|HS]; rewrite HS in ER; (destruct (Z.leb_spec RTO_MAX_BACKOFF (t_backoff t)) as [X|X]; [exact X|discriminate]).
Qed.
Print Assumptions tcp_timeout_retransmits_first_unacked.

