(** C68-C70: wolfGuard sessions.  Nonces are never reused, session limits hold,
    a transport message is accepted once, and only authentic packets from the
    owner of their source address enter the stack. *)
From Verif Require Import Base ByteOrder ReplaySpec Arp WgAllowedIps WgAllowedIpsProps WgCounter EspReplayProps WgCounterProps
  WgDevice WgDeviceInv WgDeviceRun WgDeviceKeys WgToy.

(** ** Session limits need no assumption about the keys *)
Record JI (V : dview) (tr : list ev) (now : Z) : Prop := {
  ji_live : forall i s, live (V i s) -> In (ENew (Z.of_nat i) (k_skey (V i s)) (k_rkey (V i s)) (k_sbirth (V i s))) tr /\
            k_rbirth (V i s) = k_sbirth (V i s) /\ 0 <= k_sbirth (V i s) <= now;
  ji_ctr : forall i s, k_svalid (V i s) = true -> 0 <= k_sctr (V i s);
  ji_just : all_justified tr
}.
Lemma JI_ext V V' tr now : (forall i s, V' i s = V i s) -> JI V tr now -> JI V' tr now.
Proof.
  intros E []. constructor; try assumption.
  - intros i s. rewrite E. apply ji_live0.
  - intros i s. rewrite E. apply ji_ctr0.
Qed.
Lemma JI_time V tr now now' : now <= now' -> JI V tr now -> JI V tr now'.
Proof. intros L []. constructor; try assumption. intros i s H. destruct (ji_live0 i s H) as (A & B & D). split; [exact A|]. split; [exact B|]. lia. Qed.

Lemma validate_bound k c : snd (wg_counter_validate k c) = true -> c < 2 ^ 64 - 1026.
Proof.
  unfold wg_counter_validate. destruct (Z.leb_spec WG_REJECT_AFTER_MESSAGES c) as [H|H]; [discriminate|]. intros _. rewrite reject_val in H. exact H.
Qed.

(** One slot changes to [k'], the trace grows by [e]. *)
Lemma JI_slot V V1 tr now i s k' e : JI V tr now -> upd1 (V i) (V1 i) s k' -> (forall j, j <> i -> forall t, V1 j t = V j t) ->
  (live k' -> In (ENew (Z.of_nat i) (k_skey k') (k_rkey k') (k_sbirth k')) (tr ++ e) /\ k_rbirth k' = k_sbirth k' /\ 0 <= k_sbirth k' <= now) ->
  (k_svalid k' = true -> 0 <= k_sctr k') -> all_justified (tr ++ e) -> JI V1 (tr ++ e) now.
Proof.
  intros [] (U1 & U2) UO HL HC HJ.
  assert (CASE : forall j t, (j = i /\ t = s /\ V1 j t = k') \/ ((j, t) <> (i, s) /\ V1 j t = V j t)).
  { intros j t. destruct (pair_dec j t i s) as [E|N]; [injection E as -> ->; left; auto|right]. split; [exact N|].
    destruct (Nat.eq_dec j i) as [->|NJ]; [apply U2; congruence|apply UO, NJ]. }
  constructor; [| |exact HJ].
  - intros j t. destruct (CASE j t) as [(-> & -> & ->)|(N & ->)]; [exact HL|]. intros H. destruct (ji_live0 j t H) as (A & B).
    split; [apply in_or_app; left; exact A|exact B].
  - intros j t. destruct (CASE j t) as [(-> & -> & ->)|(N & ->)]; [exact HC|apply ji_ctr0].
Qed.

Lemma kstep_JI V V1 tr now i e : JI V tr now -> 0 <= now < 2 ^ 64 ->
  kstep (Z.of_nat i) now (V i) e (V1 i) -> (forall j, j <> i -> forall s, V1 j s = V j s) -> JI V1 (tr ++ e) now.
Proof.
  intros K HN KS UO. remember (V i) as v eqn:Ev. remember (V1 i) as v1 eqn:Ev1.
  destruct KS as [v v' s pt SV LT LP AGE U|v v' s U|v v' s U|v v' s sk rk li ri ini U|v v' s c RV CR VD U|v v' s c pt RV CR AGE VD U|v v' e NE U]; subst v v'.
  - destruct (ji_live _ _ _ K i s (or_introl SV)) as (L1 & L2 & L3). pose proof (ji_ctr _ _ _ K i s SV) as C0.
    assert (EU : u64 (k_sctr (V i s) + 1) = k_sctr (V i s) + 1) by (unfold u64; rewrite reject_val in LT; apply Z.mod_small; lia).
    assert (EA : u64 (now - k_sbirth (V i s)) = now - k_sbirth (V i s)) by (unfold u64; apply Z.mod_small; lia).
    rewrite EA in AGE. rewrite EU in U. unfold REJECT_AFTER_MS in AGE.
    eapply JI_slot; [exact K|exact U|exact UO| | |]; cbn [kp_ctr k_skey k_rkey k_sbirth k_rbirth k_sctr].
    + intros _. split; [apply in_or_app; left; exact L1|]. split; assumption.
    + intros _. lia.
    + apply justified_snoc; [apply (ji_just _ _ _ K)|]. cbn. exists (k_rkey (V i s)), (k_sbirth (V i s)). split; [exact L1|].
      split; [lia|]. rewrite reject_val in LT. split; [lia|]. intros NP. specialize (LP NP). unfold REKEY_AFTER_MESSAGES in LP. lia.
  - eapply JI_slot; [exact K|exact U|exact UO| | |]; cbn [kp_inv k_skey k_rkey k_sbirth k_rbirth k_sctr k_svalid]; try discriminate.
    + intros [H|H]; [discriminate|]. rewrite app_nil_r. apply (ji_live _ _ _ K). right. exact H.
    + rewrite app_nil_r. apply (ji_just _ _ _ K).
  - eapply JI_slot; [exact K|exact U|exact UO| | |]; cbn [kp_zero k_svalid]; try discriminate.
    + intros [H|H]; discriminate.
    + rewrite app_nil_r. apply (ji_just _ _ _ K).
  - eapply JI_slot; [exact K|exact U|exact UO| | |]; cbn [k_skey k_rkey k_sbirth k_rbirth k_sctr k_svalid].
    + intros _. split; [apply in_or_app; right; left; reflexivity|]. split; [reflexivity|lia].
    + lia.
    + apply justified_snoc; [apply (ji_just _ _ _ K)|exact I].
  - eapply JI_slot; [exact K|exact U|exact UO| | |]; cbn [kp_rx k_skey k_rkey k_sbirth k_rbirth k_sctr k_svalid].
    + intros H. rewrite app_nil_r. exact (ji_live _ _ _ K i s H).
    + exact (ji_ctr _ _ _ K i s).
    + rewrite app_nil_r. apply (ji_just _ _ _ K).
  - destruct (ji_live _ _ _ K i s (or_intror RV)) as (L1 & L2 & L3).
    assert (EA : u64 (now - k_rbirth (V i s)) = now - k_sbirth (V i s)) by (rewrite L2; unfold u64; apply Z.mod_small; lia).
    rewrite EA in AGE. unfold REJECT_AFTER_MS in AGE.
    eapply JI_slot; [exact K|exact U|exact UO| | |]; cbn [kp_rx k_skey k_rkey k_sbirth k_rbirth k_sctr k_svalid].
    + intros _. split; [apply in_or_app; left; exact L1|]. split; assumption.
    + exact (ji_ctr _ _ _ K i s).
    + apply justified_snoc; [apply (ji_just _ _ _ K)|]. cbn. exists (k_skey (V i s)), (k_sbirth (V i s)). split; [exact L1|]. split; [lia|].
      apply validate_bound in VD. lia.
  - destruct K. constructor.
    + intros j s. assert (E : V1 j s = V j s) by (destruct (Nat.eq_dec j i) as [->|NJ]; [apply U|apply UO, NJ]). rewrite E. intros H.
      destruct (ji_live0 j s H) as (A & B). split; [apply in_or_app; left; exact A|exact B].
    + intros j s. assert (E : V1 j s = V j s) by (destruct (Nat.eq_dec j i) as [->|NJ]; [apply U|apply UO, NJ]). rewrite E. apply ji_ctr0.
    + apply justified_snoc; [assumption|]. destruct e; try destruct NE; exact I.
Qed.

Lemma gsteps_JI now V e V' : gsteps now V e V' -> 0 <= now < 2 ^ 64 -> forall tr, JI V tr now -> JI V' (tr ++ e) now.
Proof.
  intros G HN. induction G as [V V' H|V V1 V2 i e1 e2 K1 K2 K3 IH]; intros tr K.
  - rewrite app_nil_r. eapply JI_ext; [exact H|exact K].
  - rewrite app_assoc. apply IH. eapply kstep_JI; [exact K|exact HN|exact K1|exact K2].
Qed.

Section Props.
Context (C : crypto).

Lemma run_JI ops : forall d tr, dev_wf d -> 0 <= g_now (fst d) < 2 ^ 64 -> hist_ok (g_now (fst d)) ops -> JI (gview d) tr (g_now (fst d)) ->
  JI (gview (fst (run C d ops))) (tr ++ snd (run C d ops)) (g_now (fst (fst (run C d ops)))).
Proof.
  induction ops as [|(o, r) ops IH]; intros d tr W HN HO K; cbn [run].
  - cbn [fst snd]. rewrite app_nil_r. exact K.
  - destruct HO as (HO1 & HO2). destruct (step_ok C d o r W HO1) as ((W1 & G1) & EN).
    destruct (step C d o r) as [d1 e1]. cbn [fst snd] in *.
    specialize (IH d1 (tr ++ e1) W1). destruct (run C d1 ops) as [d2 e2]. cbn [fst snd] in *. rewrite app_assoc.
    assert (HN1 : 0 <= g_now (fst d1) < 2 ^ 64 /\ g_now (fst d) <= g_now (fst d1)).
    { rewrite EN. destruct o; cbn [op_ok op_now] in *; lia. }
    apply IH; [apply HN1|rewrite EN; exact HO2|]. eapply gsteps_JI; [exact G1|apply HN1|eapply JI_time; [apply HN1|exact K]].
Qed.

(** The trace of a device since wolfguard_init, for the calls [ops]. *)
Definition trace (ops : list (op * list (list Z))) : list ev := snd (run C dev_init ops).

(** C68.  No two transport messages are ever encrypted under the same key with
    the same counter, provided no two sessions get the same keys (which is up to
    the random generator and the hash). *)
Theorem wg_nonce_unique : forall ops, hist_ok 0 ops -> NoDup (skeys (trace ops)) -> NoDup (rkeys (trace ops)) ->
  NoDup (nonces (trace ops)).
Proof. intros ops H N1 N2. apply (ki_nonce _ _ _ (trace_KI C ops H N1 N2)). Qed.

(** C69.  Whatever happens, a message is encrypted to peer [i], or accepted from
    it, only under a key of a session with that same peer established less than
    180 s before, with a counter below 2^64 - 1026; packets (non-empty messages)
    only below 2^60. *)
Theorem wg_session_limits : forall ops, hist_ok 0 ops -> all_justified (trace ops).
Proof.
  intros ops H. apply (ji_just (gview (fst (run C dev_init ops))) _ (g_now (fst (fst (run C dev_init ops))))).
  apply (run_JI ops dev_init [] dev_init_wf); [cbn; lia|exact H|]. destruct KI_init. constructor; assumption.
Qed.

(** C70, first part.  No transport message is accepted twice. *)
Theorem wg_accepted_once : forall ops, hist_ok 0 ops -> NoDup (skeys (trace ops)) -> NoDup (rkeys (trace ops)) ->
  NoDup (accepts (trace ops)).
Proof. intros ops H N1 N2. apply (ki_acc _ _ _ (trace_KI C ops H N1 N2)). Qed.

(** *** What enters the stack *)
Definition noinj (e : list ev) : Prop := forall i pt, ~ In (EInj i pt) e.
Definition quietact (a : act) : Prop := forall g p, noinj (snd (a g p)).
Lemma noinj_nil : noinj []. Proof. intros i pt []. Qed.
Lemma noinj_app a b : noinj a -> noinj b -> noinj (a ++ b).
Proof. intros A B i pt I. apply in_app_or in I. destruct I as [I|I]; [exact (A i pt I)|exact (B i pt I)]. Qed.
Lemma q_seq a b : quietact a -> quietact b -> quietact (seq a b).
Proof.
  intros A B g p. unfold seq. specialize (A g p). destruct (a g p) as [[g1 p1] e1]. specialize (B g1 p1). destruct (b g1 p1) as [[g2 p2] e2].
  cbn [snd] in *. apply noinj_app; assumption.
Qed.
Ltac nj := let i := fresh in let pt := fresh in let I := fresh in intros i pt I; cbn in I; intuition discriminate.
Lemma q_initiate i : quietact (initiate C i).
Proof. intros g p. unfold initiate. destruct (create_initiation C g (p_hs p)) as [[g1 h1] [m|]]; [|nj]. destruct (add_macs C _ _ _). nj. Qed.
Lemma q_reset : quietact (reset_handshake C).
Proof. intros g p. apply noinj_nil. Qed.
Lemma q_send_init i : quietact (send_initiation C i).
Proof. apply q_seq; [apply q_reset|apply q_initiate]. Qed.
Lemma q_packet i pkt : quietact (packet_send C i pkt).
Proof.
  intros g p. unfold packet_send.
  assert (NS : noinj (snd (let p1 := stage p pkt in if hs_eqb (h_state (p_hs p1)) Zeroed then initiate C i g p1 else (g, p1, [])))).
  { cbn zeta. destruct (hs_eqb _ _); [apply q_initiate|apply noinj_nil]. }
  destruct (s_cur (p_kps p)) as [s|]; [|exact NS]. destruct (negb _); [exact NS|]. cbn zeta.
  destruct (_ || _); [apply noinj_nil|]. destruct (_ <? _); [apply noinj_nil|]. destruct (c_enc _ _ _ _ _) as [ct|]; [|apply noinj_nil].
  destruct (_ && _); [|nj]. pose proof (q_initiate i) as Q. set (p2 := up_tsent _ _ _). specialize (Q g p2). destruct (initiate C i g p2) as [[g3 p3] e3].
  cbn [snd] in *. apply noinj_app; [nj|exact Q].
Qed.
Lemma q_loop i n : forall j, quietact (staged_loop C i n j).
Proof. induction n as [|n IH]; intros j g p; cbn [staged_loop]; [apply noinj_nil|]. apply q_seq; [apply q_packet|apply IH]. Qed.
Lemma q_staged i : quietact (send_staged C i).
Proof. intros g p. apply q_loop. Qed.
Lemma q_keep i : quietact (keepalive C i).
Proof.
  intros g p. unfold keepalive. destruct (s_cur _); [|apply noinj_nil]. cbn zeta. do 3 (destruct (_ : bool); [apply noinj_nil|]).
  destruct (c_enc _ _ _ _ _); [nj|apply noinj_nil].
Qed.
Lemma q_first i : quietact (first_keepalive C i).
Proof. intros g p. unfold first_keepalive. destruct (s_cur _); [|apply noinj_nil]. destruct (_ =? _); [apply q_keep|apply noinj_nil]. Qed.
Lemma q_finish i x : quietact x -> quietact (finish C i x).
Proof.
  intros Q g p. unfold finish. destruct (begin_session C i g p) as [[p1 e1]|] eqn:E; [|apply noinj_nil].
  unfold begin_session in E. destruct (_ && _); [discriminate|]. destruct (kdf2 C (h_ck (p_hs p)) []) as [t1 t2]. injection E as <- <-.
  set (p1 := up_tdone _ _). pose proof (q_seq _ _ (q_staged i) Q g p1) as Q1. destruct (seq _ _ g p1) as [[g2 p2] e2]. cbn [snd] in *.
  apply noinj_app; [nj|exact Q1].
Qed.
Lemma q_answer i ip port : quietact (answer C i ip port).
Proof.
  intros g p. unfold answer. destruct (create_response C g _) as [[g1 h1] [m|]]; [|apply noinj_nil]. destruct (add_macs C _ _ _) as [c' full].
  set (p1 := up_cookie _ _). assert (QS : quietact skip) by (intros ? ?; apply noinj_nil). pose proof (q_finish i skip QS g1 p1) as Q.
  destruct (finish C i skip g1 p1) as [[g2 p2] e2]. cbn [snd] in *. change (EUdp ip port full :: e2) with ([EUdp ip port full] ++ e2). apply noinj_app; [nj|exact Q].
Qed.
Lemma q_jitter : quietact jitter.
Proof. intros g p. unfold jitter. destruct (g_rng g); apply noinj_nil. Qed.
Lemma q_tick i : quietact (tick C i).
Proof.
  intros g p. unfold tick. destruct (negb _); [apply noinj_nil|].
  apply q_seq; [|apply q_seq; [|apply q_seq; [|apply q_seq; [|apply q_seq]]]]; intros g0 p0.
  - unfold tm_retransmit. destruct (_ || _); [apply noinj_nil|]. destruct (_ <=? _); [apply noinj_nil|]. destruct (_ <=? _); [apply q_send_init|apply noinj_nil].
  - unfold tm_passive. destruct (s_cur _); [|apply noinj_nil]. do 4 (destruct (_ : bool); [apply noinj_nil|]).
    pose proof (q_keep i g0 p0) as Q. destruct (keepalive C i g0 p0) as [[? ?] ?]. exact Q.
  - unfold tm_rekey. destruct (s_cur _); [|apply noinj_nil]. cbn zeta. do 2 (destruct (_ : bool); [apply noinj_nil|]). apply q_seq; [apply q_jitter|apply q_send_init].
  - unfold tm_stale. destruct (s_cur _); [|apply noinj_nil]. do 3 (destruct (_ : bool); [apply noinj_nil|]). apply q_seq; [apply q_jitter|apply q_send_init].
  - unfold tm_zero. destruct (s_cur _); [|apply noinj_nil]. destruct (_ <? _); apply noinj_nil.
  - unfold tm_persistent. destruct (_ =? 0); [apply noinj_nil|]. destruct (s_cur _); [|apply noinj_nil]. do 2 (destruct (_ : bool); [apply noinj_nil|]).
    pose proof (q_keep i g0 p0) as Q. destruct (keepalive C i g0 p0) as [[? ?] ?]. exact Q.
Qed.
Lemma q_on_peer d i a : quietact a -> noinj (snd (on_peer d i a)).
Proof. intros Q. unfold on_peer. specialize (Q (fst d) (nth i (snd d) peer_zero)). destruct (a _ _) as [[g p] e]. exact Q. Qed.
Lemma q_tick_all n : forall d i, noinj (snd (tick_all C d n i)).
Proof.
  induction n as [|n IH]; intros d i; cbn [tick_all]; [apply noinj_nil|]. pose proof (q_on_peer d i (tick C (Z.of_nat i)) (q_tick _)) as Q.
  destruct (on_peer d i _) as [d1 e1]. specialize (IH d1 (S i)). destruct (tick_all C d1 n (S i)) as [d2 e2]. cbn [snd] in *. apply noinj_app; assumption.
Qed.
Lemma q_reply d b off ip port : noinj (snd (send_reply C d b off ip port)).
Proof. unfold send_reply. destruct (create_reply C (fst d) b off ip port) as [g [m|]]; [nj|apply noinj_nil]. Qed.

(** A device's allowed-IPs table is the one its successful OAllow calls built:
    a call takes effect when its peer has been added. *)
Fixpoint allowed_calls (n : Z) (ops : list (op * list (list Z))) : list aop :=
  match ops with
  | [] => []
  | (OPeer _ _ _ _ _, _) :: l => allowed_calls (n + 1) l
  | (OAllow i ip cidr, _) :: l => (if (0 <=? i) && (i <? Z.min n 8) then [AInsert (ee32 ip) cidr i] else []) ++ allowed_calls n l
  | _ :: l => allowed_calls n l
  end.

Definition allow_ok (o : op * list (list Z)) : Prop :=
  match fst o with OAllow _ ip cidr => 0 <= ip < 2 ^ 32 /\ 0 <= cidr < 256 | _ => True end.

Lemma allowed_wf ops : Forall allow_ok ops -> forall n, Forall aop_wf (allowed_calls n ops).
Proof.
  induction ops as [|(o, r) ops IH]; intros F n; [constructor|]. inversion F as [|x l H1 H2]; subst. destruct o; cbn [allowed_calls]; try (apply IH; assumption).
  apply Forall_app. split; [|apply IH; assumption]. destruct ((0 <=? i) && (i <? Z.min n 8)) eqn:E; [|constructor]. constructor; [|constructor].
  cbn in H1. cbn. apply andb_true_iff in E. destruct E as (E1 & E2). pose proof (ee32_range ip). lia.
Qed.

(** The peers are the first [n] slots, and the table is [l]. *)
Definition cfg (d : dev) (n : Z) (l : list aip) : Prop :=
  0 <= n /\ (forall i, (i < 8)%nat -> p_active (nth i (snd d) peer_zero) = (Z.of_nat i <? n)) /\ g_aips (fst d) = l.

Definition keeps (a : act) : Prop := forall g p, let '(g', p', _) := a g p in p_active p' = p_active p /\ g_aips g' = g_aips g.
Lemma good_keeps i a : (forall g p, peer_wf p -> aok i g p (a g p)) -> forall g p, peer_wf p ->
  let '(g', p', _) := a g p in p_active p' = p_active p /\ g_aips g' = g_aips g.
Proof. intros G g p W. specialize (G g p W). destruct (a g p) as [[g' p'] e]. destruct G as ((_ & _ & _ & A & _) & _ & B & _). split; assumption. Qed.

Lemma cfg_on_peer d i a n l : dev_wf d -> (i < 8)%nat -> good (Z.of_nat i) a -> cfg d n l -> cfg (fst (on_peer d i a)) n l.
Proof.
  intros W Hi G (N0 & A & B). unfold on_peer. pose proof (good_keeps _ _ G (fst d) _ (nth_wf d i W)) as K. destruct (a _ _) as [[g p] e]. destruct K as (K1 & K2).
  split; [exact N0|]. cbn [fst snd]. split; [|congruence]. intros j Hj. pose proof W as (L & _). destruct (Nat.eq_dec j i) as [->|NJ].
  - rewrite nth_lset_eq by lia. rewrite K1. apply A, Hj.
  - rewrite nth_lset_ne by exact NJ. apply A, Hj.
Qed.
Lemma cfg_tick_all n l k : forall d i, dev_wf d -> (i + k <= 8)%nat -> cfg d n l -> cfg (fst (tick_all C d k i)) n l.
Proof.
  induction k as [|k IH]; intros d i W Hi H; cbn [tick_all]; [exact H|].
  pose proof (cfg_on_peer d i (tick C (Z.of_nat i)) n l W ltac:(lia) (tick_good C _) H) as H1.
  destruct (on_peer_ok d i (tick C (Z.of_nat i)) W ltac:(lia) (tick_good C _)) as ((W1 & _) & _).
  destruct (on_peer d i _) as [d1 e1]. cbn [fst] in *. specialize (IH d1 (S i) W1 ltac:(lia) H1). destruct (tick_all C d1 k (S i)) as [d2 e2]. exact IH.
Qed.
Lemma cfg_lset g ps i p g' n l : length ps = 8%nat -> (i < 8)%nat -> p_active p = p_active (nth i ps peer_zero) -> g_aips g' = g_aips g ->
  cfg (g, ps) n l -> cfg (g', lset ps i p) n l.
Proof.
  intros L Hi HP HG (N0 & A & B). split; [exact N0|]. cbn [fst snd] in *. split; [|congruence]. intros j Hj. destruct (Nat.eq_dec j i) as [->|NJ].
  - rewrite nth_lset_eq by lia. rewrite HP. apply A, Hj.
  - rewrite nth_lset_ne by exact NJ. apply A, Hj.
Qed.
Lemma cfg_reply d b off ip port n l : cfg d n l -> cfg (fst (send_reply C d b off ip port)) n l.
Proof.
  intros H. unfold send_reply, create_reply.
  destruct (COOKIE_AGE_MS <? _); [destruct (g_rng (fst d)) as [|x r]; [exact H|]|]; cbn [negb].
  - destruct (g_rng (up_chk _ _)); [exact H|]. cbn zeta. destruct (c_xenc _ _ _ _ _); exact H.
  - destruct (g_rng (fst d)); [exact H|]. cbn zeta. destruct (c_xenc _ _ _ _ _); exact H.
Qed.

Lemma find_free_spec ps : forall i j, find_free ps i = Some j -> (i <= j < i + length ps)%nat /\
  p_active (nth (j - i) ps peer_zero) = false /\ forall k, (k < j - i)%nat -> p_active (nth k ps peer_zero) = true.
Proof.
  induction ps as [|p ps IH]; intros i j; cbn [find_free]; [discriminate|]. destruct (p_active p) eqn:E; cbn [negb].
  - intros H. destruct (IH _ _ H) as (A & B & D). cbn [length]. split; [lia|]. replace (j - i)%nat with (S (j - S i)) by lia. cbn [nth]. split; [exact B|].
    intros [|k] Hk; [exact E|]. apply D. lia.
  - intros [= <-]. cbn [length]. rewrite Nat.sub_diag. split; [lia|]. split; [exact E|]. intros k Hk. lia.
Qed.
Lemma find_free_none ps : forall i, find_free ps i = None -> forall k, (k < length ps)%nat -> p_active (nth k ps peer_zero) = true.
Proof.
  induction ps as [|p ps IH]; intros i; cbn [find_free length]; [lia|]. destruct (p_active p) eqn:E; cbn [negb]; [|discriminate].
  intros H [|k] Hk; [exact E|]. apply (IH _ H). lia.
Qed.

Lemma cfg_step d o r n l rest : dev_wf d -> op_ok (g_now (fst d)) o -> allow_ok (o, r) -> cfg d n l ->
  exists n' l', cfg (fst (step C d o r)) n' l' /\
    exists x, allowed_calls n ((o, r) :: rest) = x ++ allowed_calls n' rest /\ l' = fst (model_run l x).
Proof.
  intros W HO HA H. unfold step. set (d0 := (up_rng (fst d) r, snd d)).
  assert (W0 : dev_wf d0) by exact W. assert (H0 : cfg d0 n l) by exact H. clearbody d0. clear W H. destruct W0 as (L & F). pose proof (conj L F : dev_wf d0) as W0. clear F.
  destruct o as [priv|pub psk ip port ka|i ip cidr|pkt|now|b ip port]; cbn [allowed_calls].
  - exists n, l. split; [|exists []; split; reflexivity]. unfold set_private_key. destruct (c_pub C priv); [|exact H0]. destruct H0 as (N0 & A & B). split; [exact N0|]. cbn [fst snd].
    split; [|exact B]. intros i Hi. rewrite (nth_indep _ peer_zero (rekey_peer C priv peer_zero)) by (rewrite map_length; lia). rewrite map_nth, <- (A i Hi).
    unfold rekey_peer. destruct (negb _); reflexivity.
  - unfold add_peer. destruct H0 as (N0 & A & B). destruct (find_free (snd d0) 0) as [j|] eqn:E; cbn [fst].
    + exists (n + 1), l. split; [|exists []; split; reflexivity]. apply find_free_spec in E. rewrite Nat.sub_0_r in E. destruct E as (E1 & E2 & E3). split; [lia|]. split; [|exact B].
      assert (NJ : n = Z.of_nat j). { rewrite A in E2 by lia. destruct (Z.eq_dec n (Z.of_nat j)) as [X|X]; [exact X|]. exfalso. specialize (E3 (Z.to_nat n) ltac:(lia)). rewrite A in E3 by lia. lia. }
      intros i Hi. cbn [snd]. destruct (Nat.eq_dec i j) as [->|NE].
      * rewrite nth_lset_eq by lia. cbn [new_peer p_active]. lia.
      * rewrite nth_lset_ne by exact NE. rewrite A by exact Hi. lia.
    + exists (n + 1), l. split; [|exists []; split; reflexivity]. split; [lia|]. split; [|exact B]. intros i Hi. pose proof (find_free_none _ _ E i ltac:(lia)) as X.
      rewrite X. rewrite A in X by exact Hi. lia.
  - unfold add_allowed. destruct H0 as (N0 & A & B). cbn in HA.
    destruct ((i <? 0) || (MAX_PEERS <=? i)) eqn:E1; [|destruct (p_active (nth (Z.to_nat i) (snd d0) peer_zero)) eqn:E2; cbn [negb]].
    + exists n, l. split; [split; [exact N0|split; [exact A|exact B]]|]. exists []. split; [|reflexivity]. unfold MAX_PEERS in E1.
      replace ((0 <=? i) && (i <? Z.min n 8)) with false by lia. reflexivity.
    + unfold MAX_PEERS in E1. rewrite A in E2 by lia. exists n, (fst (model_run l [AInsert (ee32 ip) cidr i])). split.
      * split; [exact N0|]. cbn [fst snd]. split; [exact A|]. cbn [model_run model_op]. rewrite ee32_inv by lia. cbn [up_aips g_aips]. rewrite B.
        destruct (aips_insert l ip cidr i). reflexivity.
      * exists [AInsert (ee32 ip) cidr i]. split; [|reflexivity]. replace ((0 <=? i) && (i <? Z.min n 8)) with true by lia. reflexivity.
    + unfold MAX_PEERS in E1. rewrite A in E2 by lia. exists n, l. split; [split; [exact N0|split; [exact A|exact B]]|]. exists []. split; [|reflexivity].
      replace ((0 <=? i) && (i <? Z.min n 8)) with false by lia. reflexivity.
  - exists n, l. split; [|exists []; split; reflexivity]. unfold output. destruct (wolfguard_output _ _ pkt) as [i|] eqn:EO; [|exact H0].
    unfold wolfguard_output in EO. destruct (zlen pkt <? 20); [discriminate|]. destruct (negb _); [discriminate|]. cbn zeta in EO.
    destruct ((aips_lookup (g_aips (fst d0)) (load_le32 (skipn 16 pkt)) <? 0) || (8 <=? aips_lookup (g_aips (fst d0)) (load_le32 (skipn 16 pkt)))) eqn:EB; [discriminate|].
    destruct (negb _); [discriminate|]. apply orb_false_iff in EB. destruct EB as (EB1 & EB2). assert (EI : aips_lookup (g_aips (fst d0)) (load_le32 (skipn 16 pkt)) = i) by congruence.
    rewrite EI in EB1, EB2. assert (RI : 0 <= i < 8) by lia.
    assert (G : good (Z.of_nat (Z.to_nat i)) (packet_send C i pkt)) by (rewrite Z2Nat.id by lia; apply packet_send_good).
    pose proof (cfg_on_peer d0 (Z.to_nat i) _ n l W0 ltac:(lia) G H0) as X. destruct (on_peer _ _ _) as [d' e]. exact X.
  - exists n, l. split; [|exists []; split; reflexivity]. unfold poll. apply cfg_tick_all; [exact W0|lia|exact H0].
  - exists n, l. split; [|exists []; split; reflexivity]. unfold packet_receive. destruct (zlen b <? 4); [exact H0|]. cbn zeta. destruct d0 as [g ps]. cbn [snd] in L.
    destruct (_ =? 1); [|destruct (_ =? 2); [|destruct (_ =? 3); [|destruct (_ =? 4); [|exact H0]]]].
    + unfold handle_initiation. destruct (zlen b <? INIT_LEN); [exact H0|].
      assert (X : cfg (fst (if g_load g && negb (match cookie_validate C (g_chk g) b (Z.to_nat INIT_MAC) ip port (g_now g) with MacCookie => true | _ => false end)
        then send_reply C (g, ps) b (Z.to_nat INIT_MAC) ip port else let g1 := up_hpc g (u16 (g_hpc g + 1)) in
        match consume_initiation C g1 ps b with None => ((g1, ps), []) | Some (i, p, ts) =>
          let (d', e) := on_peer (g1, lset ps i p) i (answer C (Z.of_nat i) ip port) in (d', EHello (Z.of_nat i) ts (g_now g) :: e) end)) n l).
      { destruct (_ && _); [apply cfg_reply, H0|]. cbn zeta. destruct (consume_initiation C _ ps b) as [[[i p] ts]|] eqn:EC; [|exact H0].
        pose proof (consume_initiation_facts _ _ _ _ _ _ _ EC) as CF. destruct CF as (C1 & C2 & C3 & C4 & C5 & C6).
        assert (X1 : cfg (up_hpc g (u16 (g_hpc g + 1)), lset ps i p) n l) by (eapply cfg_lset; [exact L|lia|congruence|reflexivity|exact H0]).
        assert (X2 : dev_wf (up_hpc g (u16 (g_hpc g + 1)), lset ps i p)) by (apply lset_wf; [exact W0|]; eapply wf_fields; [apply (nth_wf (g, ps) i W0)|assumption..]).
        pose proof (cfg_on_peer _ i (answer C (Z.of_nat i) ip port) n l X2 ltac:(lia) (answer_good C _ ip port) X1) as X3.
        destruct (on_peer _ _ _) as [d' e]. exact X3. }
      destruct (cookie_validate C (g_chk g) b (Z.to_nat INIT_MAC) ip port (g_now g)); [exact H0|exact X|exact X].
    + unfold handle_response. destruct (zlen b <? RESP_LEN); [exact H0|].
      assert (X : cfg (fst (if g_load g && negb (match cookie_validate C (g_chk g) b (Z.to_nat RESP_MAC) ip port (g_now g) with MacCookie => true | _ => false end)
        then send_reply C (g, ps) b (Z.to_nat RESP_MAC) ip port else let g1 := up_hpc g (u16 (g_hpc g + 1)) in
        match find_wait ps (mr_receiver b) 0 with None => ((g1, ps), []) | Some i => let p := nth i ps peer_zero in
          match consume_response C g1 (p_hs p) b with None => ((g1, ps), []) | Some h1 =>
             on_peer (g1, lset ps i (up_ep (up_hs p h1) ip port)) i (finish C (Z.of_nat i) (first_keepalive C (Z.of_nat i))) end end)) n l).
      { destruct (_ && _); [apply cfg_reply, H0|]. cbn zeta. destruct (find_wait ps (mr_receiver b) 0) as [i|] eqn:EF; [|exact H0]. apply find_wait_bound in EF.
        destruct (consume_response C _ _ b) as [h1|]; [|exact H0].
        apply cfg_on_peer; [|lia|apply finish_good, first_keepalive_good|eapply cfg_lset; [exact L|lia|reflexivity|reflexivity|exact H0]].
        apply lset_wf; [exact W0|]. eapply wf_fields; [apply (nth_wf (g, ps) i W0)|reflexivity|reflexivity|reflexivity]. }
      destruct (cookie_validate C (g_chk g) b (Z.to_nat RESP_MAC) ip port (g_now g)); [exact H0|exact X|exact X].
    + unfold handle_cookie. destruct (zlen b <? 72); [exact H0|]. destruct (find_mac1 _ _ 0) as [i|] eqn:EF; [|exact H0]. apply find_mac1_bound in EF. cbn [fst].
      eapply cfg_lset; [exact L|lia|reflexivity|reflexivity|exact H0].
    + unfold handle_data. destruct (zlen b <? 32); [exact H0|]. cbn zeta. destruct (find_idx ps _ 0) as [[i s]|] eqn:EF; [|exact H0].
      apply find_idx_spec in EF. destruct EF as (HI & _).
      destruct (negb _); [exact H0|]. destruct (_ <=? _); [exact H0|]. destruct (_ <? _); [exact H0|]. destruct (c_dec _ _ _ _ _) as [pt|]; [|exact H0].
      destruct (wg_counter_validate _ _) as [rx ok]. destruct ok; cbn [negb fst]; (eapply cfg_lset; [exact L|lia|reflexivity|reflexivity|exact H0]).
Qed.

Lemma model_run_app l a b : fst (model_run l (a ++ b)) = fst (model_run (fst (model_run l a)) b).
Proof.
  revert l. induction a as [|o a IH]; intros l; [reflexivity|]. cbn [app model_run]. destruct (model_op l o) as [l1 x]. specialize (IH l1).
  destruct (model_run l1 (a ++ b)), (model_run l1 a). exact IH.
Qed.
Lemma cfg_run ops : forall d n l, dev_wf d -> hist_ok (g_now (fst d)) ops -> Forall allow_ok ops -> cfg d n l ->
  exists n', dev_wf (fst (run C d ops)) /\ cfg (fst (run C d ops)) n' (fst (model_run l (allowed_calls n ops))).
Proof.
  induction ops as [|(o, r) ops IH]; intros d n l W HO HA H; cbn [run].
  - exists n. split; assumption.
  - destruct HO as (HO1 & HO2). inversion HA as [|y ys HA1 HA2]; subst. destruct (step_ok C d o r W HO1) as ((W1 & _) & EN).
    destruct (cfg_step d o r n l ops W HO1 HA1 H) as (n1 & l1 & H1 & x & EX & EL). destruct (step C d o r) as [d1 e1]. cbn [fst snd] in *.
    destruct (IH d1 n1 l1 W1 ltac:(rewrite EN; exact HO2) HA2 H1) as (n2 & W2 & H2). exists n2. rewrite EX, model_run_app, <- EL.
    destruct (run C d1 ops) as [d2 e2]. split; assumption.
Qed.
Lemma cfg_init : cfg dev_init 0 aips_init.
Proof. split; [lia|]. split; [|reflexivity]. intros i Hi. do 8 (destruct i as [|i]; [reflexivity|]). lia. Qed.

Lemma run_app a : forall d b, run C d (a ++ b) = (fst (run C (fst (run C d a)) b), snd (run C d a) ++ snd (run C (fst (run C d a)) b)).
Proof.
  induction a as [|(o, r) a IH]; intros d b; cbn [app run]; [cbn [fst snd app]; destruct (run C d b); reflexivity|].
  destruct (step C d o r) as [d1 e1]. rewrite (IH d1 b). destruct (run C d1 a) as [d2 e2]. cbn [fst snd]. rewrite app_assoc. reflexivity.
Qed.
Lemma hist_app a : forall now b, hist_ok now (a ++ b) -> hist_ok now a.
Proof. induction a as [|(o, r) a IH]; intros now b H; [exact I|]. cbn in *. destruct H as (H1 & H2). split; [exact H1|exact (IH _ _ H2)]. Qed.

(** What one call can inject. *)
Lemma step_inj d o r i pt : In (EInj i pt) (snd (step C d o r)) ->
  exists b ip port key, o = ORecv b ip port /\ rdle32 b = 4 /\
    snd (step C d o r) = [EAcc i key (rdle64 (slice b 8 8)) pt (g_now (fst d)); EInj i pt] /\
    c_dec C key (rdle64 (slice b 8 8)) (skipn 16 b) [] = Some pt /\ 0 <= i /\
    wg_inject (g_aips (fst d)) i pt = Some pt.
Proof.
  intros H. unfold step in *. set (d0 := (up_rng (fst d) r, snd d)) in *. change (g_now (fst d)) with (g_now (fst d0)). change (g_aips (fst d)) with (g_aips (fst d0)). clearbody d0.
  destruct o as [priv|pub psk ip port ka|k ip cidr|pkt|now|b ip port]; try (destruct H; fail).
  - exfalso. unfold output in H. destruct (wolfguard_output _ _ pkt) as [k|]; [|destruct H]. pose proof (q_on_peer d0 (Z.to_nat k) _ (q_packet k pkt)) as Q.
    destruct (on_peer _ _ _) as [d' e]. cbn [snd] in *. destruct H as [H|H]; [discriminate|exact (Q _ _ H)].
  - exfalso. exact (q_tick_all _ _ _ _ _ H).
  - exists b, ip, port. unfold packet_receive in *. destruct (zlen b <? 4); [destruct H|]. cbn zeta in *. destruct d0 as [g ps].
    destruct (rdle32 b =? 1); [exfalso|destruct (rdle32 b =? 2); [exfalso|destruct (rdle32 b =? 3); [exfalso|destruct (Z.eqb_spec (rdle32 b) 4) as [E4|]; [|destruct H]]]].
    + revert H. apply (fun X : noinj _ => X i pt). unfold handle_initiation. destruct (zlen b <? INIT_LEN); [apply noinj_nil|].
      assert (QQ : forall st, noinj (snd (if g_load g && negb (match st with MacCookie => true | _ => false end)
        then send_reply C (g, ps) b (Z.to_nat INIT_MAC) ip port else let g1 := up_hpc g (u16 (g_hpc g + 1)) in
        match consume_initiation C g1 ps b with None => ((g1, ps), []) | Some (i, p, ts) =>
          let (d', e) := on_peer (g1, lset ps i p) i (answer C (Z.of_nat i) ip port) in (d', EHello (Z.of_nat i) ts (g_now g) :: e) end))).
      { intros st. destruct (_ && _); [apply q_reply|]. cbn zeta. destruct (consume_initiation C _ ps b) as [[[k p] ts]|]; [|apply noinj_nil].
        pose proof (q_on_peer (up_hpc g (u16 (g_hpc g + 1)), lset ps k p) k _ (q_answer (Z.of_nat k) ip port)) as Q. destruct (on_peer _ _ _) as [d' e]. cbn [snd] in *.
        change (EHello (Z.of_nat k) ts (g_now g) :: e) with ([EHello (Z.of_nat k) ts (g_now g)] ++ e). apply noinj_app; [nj|exact Q]. }
      destruct (cookie_validate C (g_chk g) b (Z.to_nat INIT_MAC) ip port (g_now g)); [apply noinj_nil|apply (QQ MacValid)|apply (QQ MacCookie)].
    + revert H. apply (fun X : noinj _ => X i pt). unfold handle_response. destruct (zlen b <? RESP_LEN); [apply noinj_nil|].
      assert (QQ : forall st, noinj (snd (if g_load g && negb (match st with MacCookie => true | _ => false end)
        then send_reply C (g, ps) b (Z.to_nat RESP_MAC) ip port else let g1 := up_hpc g (u16 (g_hpc g + 1)) in
        match find_wait ps (mr_receiver b) 0 with None => ((g1, ps), []) | Some i => let p := nth i ps peer_zero in
          match consume_response C g1 (p_hs p) b with None => ((g1, ps), []) | Some h1 =>
             on_peer (g1, lset ps i (up_ep (up_hs p h1) ip port)) i (finish C (Z.of_nat i) (first_keepalive C (Z.of_nat i))) end end))).
      { intros st. destruct (_ && _); [apply q_reply|]. cbn zeta. destruct (find_wait ps (mr_receiver b) 0) as [k|]; [|apply noinj_nil].
        destruct (consume_response C _ _ b); [|apply noinj_nil]. apply q_on_peer, q_finish, q_first. }
      destruct (cookie_validate C (g_chk g) b (Z.to_nat RESP_MAC) ip port (g_now g)); [apply noinj_nil|apply (QQ MacValid)|apply (QQ MacCookie)].
    + revert H. apply (fun X : noinj _ => X i pt). unfold handle_cookie. destruct (zlen b <? 72); [apply noinj_nil|]. destruct (find_mac1 _ _ 0); apply noinj_nil.
    + unfold handle_data in *. destruct (zlen b <? 32); [destruct H|]. cbn zeta in *. destruct (find_idx ps _ 0) as [[k s]|]; [|destruct H].
      destruct (negb _); [destruct H|]. destruct (_ <=? _); [destruct H|]. destruct (_ <? _); [destruct H|].
      set (key := k_rkey _) in *. destruct (c_dec C key (rdle64 (slice b 8 8)) (skipn 16 b) []) as [x|] eqn:ED; [|destruct H].
      destruct (wg_counter_validate _ _) as [rx ok]. destruct ok; cbn [negb snd fst] in *; [|destruct H].
      destruct (wg_inject (g_aips g) (Z.of_nat k) x) as [y|] eqn:EI; [|destruct H as [H|[]]; discriminate].
      assert (y = x). { unfold wg_inject in EI. do 3 (destruct (_ : bool); [discriminate|]). cbn zeta in EI. destruct (_ || _); [discriminate|]. congruence. }
      subst y. destruct H as [H|[H|[]]]; [discriminate|]. injection H as <- <-. exists key. split; [reflexivity|]. split; [exact E4|]. split; [reflexivity|]. split; [exact ED|].
      split; [lia|exact EI].
Qed.

(** C70, second part.  A packet enters the stack through the tunnel only when a
    type-4 datagram arrives that decrypts to it under the receiving key of a
    session with peer [i]; it is an IPv4 packet that is not longer than the
    plaintext, and its source address belongs to peer [i] by longest-prefix match
    over the allowed IPs configured so far.  The message is consumed: it is the
    only thing the call does. *)
Theorem wg_injects_only_authentic : forall ops o r i pt,
  hist_ok 0 (ops ++ [(o, r)]) -> Forall allow_ok ops ->
  (forall k n c a p, Forall byte c -> c_dec C k n c a = Some p -> Forall byte p) ->
  In (EInj i pt) (snd (step C (fst (run C dev_init ops)) o r)) ->
  exists b ip port sk key c t0 t, o = ORecv b ip port /\ rdle32 b = 4 /\ c = rdle64 (slice b 8 8) /\
    c_dec C key c (skipn 16 b) [] = Some pt /\
    snd (step C (fst (run C dev_init ops)) o r) = [EAcc i key c pt t; EInj i pt] /\
    In (ENew i sk key t0) (trace ops) /\ t0 <= t < t0 + 180000 /\
    zlen pt >= 20 /\ nth 0 pt 0 / 16 = 4 /\ 256 * nth 2 pt 0 + nth 3 pt 0 <= zlen pt /\
    lpm (fst (spec_run [] (allowed_calls 0 ops))) (addr_at pt 12) i.
Proof.
  intros ops o r i pt HO HA HB H. destruct (step_inj _ _ _ _ _ H) as (b & ip & port & key & E1 & E2 & E3 & E4 & E5 & E6).
  assert (BB : Forall byte (skipn 16 b)).
  { assert (X : Forall byte b). { clear - HO E1. subst o. generalize dependent 0. induction ops as [|(o, x) ops IH]; intros now HO; cbn in HO; [tauto|]. apply (IH _ (proj2 HO)). }
    rewrite <- (firstn_skipn 16 b) in X. apply Forall_app in X. apply X. }
  pose proof (wg_session_limits _ HO) as J. unfold trace in J. rewrite run_app in J. cbn [run snd] in J.
  destruct (step C (fst (run C dev_init ops)) o r) as [d1 e1] eqn:ES. cbn [fst snd] in *. subst e1. rewrite app_nil_r in J.
  specialize (J _ _ _ eq_refl). cbn in J. destruct J as (sk & t0 & J1 & J2 & _).
  destruct (cfg_run ops dev_init 0 aips_init dev_init_wf (hist_app _ _ _ HO) HA cfg_init) as (n' & _ & (_ & _ & EA)). rewrite EA in E6.
  pose proof (inject_only_from_owner (allowed_calls 0 ops) i pt (allowed_wf ops HA 0) (HB _ _ _ _ _ BB E4) E5 pt) as IO. apply (proj1 IO) in E6.
  destruct E6 as (_ & F1 & F2 & F3 & F4).
  exists b, ip, port, sk, key, (rdle64 (slice b 8 8)), t0, (g_now (fst (fst (run C dev_init ops)))).
  repeat (split; [first [assumption|reflexivity|lia]|]). exact F4.
Qed.

(** C70, third part: what leaves through the tunnel goes to the peer that owns its
    destination. *)
Theorem wg_routes_to_owner : forall ops pkt r i x,
  hist_ok 0 ops -> Forall allow_ok ops -> Forall byte pkt ->
  In (EOut i x) (snd (step C (fst (run C dev_init ops)) (OOut pkt) r)) ->
  x = pkt /\ zlen pkt >= 20 /\ nth 0 pkt 0 / 16 = 4 /\ 0 <= i < 8 /\
  lpm (fst (spec_run [] (allowed_calls 0 ops))) (addr_at pkt 16) i.
Proof.
  intros ops pkt r i x HO HA HB H. cbn [step] in H. unfold output in H. cbn [fst snd up_rng g_aips] in H.
  destruct (cfg_run ops dev_init 0 aips_init dev_init_wf HO HA cfg_init) as (n' & W & (_ & _ & EA)). rewrite EA in H.
  set (act := fun j : Z => _) in H.
  destruct (wolfguard_output _ act pkt) as [k|] eqn:EO; [|destruct H].
  apply (proj1 (output_goes_to_owner (allowed_calls 0 ops) act pkt (allowed_wf ops HA 0) HB)) in EO. destruct EO as (F1 & F2 & F3 & F4 & F5).
  set (d0 := (up_rng (fst (fst (run C dev_init ops))) r, snd (fst (run C dev_init ops)))) in H.
  assert (NO : ~ In (EOut i x) (snd (on_peer d0 (Z.to_nat k) (packet_send C k pkt)))).
  { destruct (on_peer_ok d0 (Z.to_nat k) (packet_send C k pkt) W ltac:(lia)) as ((_ & G) & _).
    { rewrite Z2Nat.id by lia. apply packet_send_good. }
    clear. unfold on_peer. set (g := fst d0). set (p := nth _ _ _). clearbody g p.
    assert (NI : forall g p, ~ In (EOut i x) (snd (initiate C k g p))).
    { clear. intros g p. unfold initiate. destruct (create_initiation C g (p_hs p)) as [[? ?] [?|]]; [|cbn; intuition discriminate]. destruct (add_macs C _ _ _). cbn. intuition discriminate. }
    assert (NP : ~ In (EOut i x) (snd (packet_send C k pkt g p))).
    { unfold packet_send. destruct (s_cur (p_kps p)) as [s|].
      - destruct (negb _).
        + cbn zeta. destruct (hs_eqb _ _); [apply NI|intros []].
        + cbn zeta. destruct (_ || _); [intros []|]. destruct (_ <? _); [intros []|]. destruct (c_enc _ _ _ _ _); [|intros []].
          destruct (_ && _); [|cbn; intuition discriminate]. match goal with |- context [initiate C k ?a ?b] => pose proof (NI a b) as Q; destruct (initiate C k a b) as [[? ?] ?] end.
          cbn [snd] in *. intros I. apply in_app_or in I. destruct I as [I|I]; [cbn in I; intuition discriminate|exact (Q I)].
      - cbn zeta. destruct (hs_eqb _ _); [apply NI|intros []]. }
    destruct (packet_send C k pkt g p) as [[? ?] ?]. exact NP. }
  destruct (on_peer d0 (Z.to_nat k) (packet_send C k pkt)) as [d' e]. cbn [snd] in *. destruct H as [H|H]; [|contradiction]. injection H as <- <-.
  repeat (split; [first [reflexivity|assumption]|]). exact F1.
Qed.

End Props.

Print Assumptions wg_nonce_unique.
Print Assumptions wg_session_limits.
Print Assumptions wg_accepted_once.
Print Assumptions wg_injects_only_authentic.
Print Assumptions wg_routes_to_owner.

(** ** The hypotheses are met: a complete exchange between two devices. *)
Definition byteb (z : Z) : bool := (0 <=? z) && (z <? 256).
Fixpoint hist_okb (now : Z) (ops : list (op * list (list Z))) : bool :=
  match ops with
  | [] => true
  | (o, _) :: l =>
      match o with OPoll t => (now <=? t) && (t <? 18446744073709551616) | ORecv b _ _ => forallb byteb b | _ => true end
      && hist_okb (op_now now o) l
  end.
Lemma hist_okb_ok ops : forall now, hist_okb now ops = true -> hist_ok now ops.
Proof.
  induction ops as [|(o, r) ops IH]; intros now H; [exact I|]. cbn in *. apply andb_true_iff in H. destruct H as (H1 & H2). split; [|apply IH, H2].
  destruct o; try exact I; cbn [op_ok].
  - apply andb_true_iff in H1. lia.
  - apply Forall_forall. intros x IX. rewrite forallb_forall in H1. specialize (H1 x IX). unfold byteb in H1. unfold byte. lia.
Qed.
Fixpoint nodupb (l : list (list Z)) : bool :=
  match l with [] => true | x :: r => negb (existsb (leqb x) r) && nodupb r end.
Lemma nodupb_ok l : nodupb l = true -> NoDup l.
Proof.
  induction l as [|x l IH]; intros H; [constructor|]. cbn in H. apply andb_true_iff in H. destruct H as (H1 & H2). constructor; [|apply IH, H2].
  intros IX. apply negb_true_iff in H1. assert (X : existsb (leqb x) l = true) by (apply existsb_exists; exists x; split; [exact IX|apply leqb_refl]). congruence.
Qed.

(** A calls B.  Each datagram is what the other side put on the wire. *)
Definition opsA1 := setupA ++ [(OOut toy_pkt, [repeat 33 32; idx_block 5])].
Definition mInit := last_udp (trace toy opsA1).
Definition opsB1 := setupB ++ [(ORecv mInit ipA 51820, [repeat 44 32; idx_block 6])].
Definition mResp := last_udp (trace toy opsB1).
Definition opsA2 := opsA1 ++ [(ORecv mResp ipB 51820, [])].
Definition mData := last_udp (trace toy opsA2).
Definition opB2 : op := ORecv mData ipA 51820.
Definition opsB2 := opsB1 ++ [(opB2, [])].

Example toy_exchange :
  hist_ok 0 opsA2 /\ hist_ok 0 opsB2 /\ Forall allow_ok opsB1 /\
  NoDup (skeys (trace toy opsA2)) /\ NoDup (rkeys (trace toy opsA2)) /\ NoDup (skeys (trace toy opsB2)) /\ NoDup (rkeys (trace toy opsB2)) /\
  length (nonces (trace toy opsA2)) = 1%nat /\ length (accepts (trace toy opsB2)) = 1%nat /\
  skeys (trace toy opsA2) = rkeys (trace toy opsB2) /\ rkeys (trace toy opsA2) = skeys (trace toy opsB2) /\
  In (EInj 0 (pad toy_pkt)) (snd (step toy (fst (run toy dev_init opsB1)) opB2 [])) /\
  In (EOut 0 toy_pkt) (snd (step toy (fst (run toy dev_init setupA)) (OOut toy_pkt) [repeat 33 32; idx_block 5])).
Proof.
  assert (HA : hist_ok 0 opsA2) by (apply hist_okb_ok; vm_compute; reflexivity).
  assert (HB : hist_ok 0 opsB2) by (apply hist_okb_ok; vm_compute; reflexivity).
  split; [exact HA|]. split; [exact HB|].
  split; [repeat constructor; vm_compute; congruence|].
  split; [apply nodupb_ok; vm_compute; reflexivity|]. split; [apply nodupb_ok; vm_compute; reflexivity|].
  split; [apply nodupb_ok; vm_compute; reflexivity|]. split; [apply nodupb_ok; vm_compute; reflexivity|].
  split; [vm_compute; reflexivity|]. split; [vm_compute; reflexivity|]. split; [vm_compute; reflexivity|]. split; [vm_compute; reflexivity|].
  split; [vm_compute; right; left; reflexivity|vm_compute; left; reflexivity].
Qed.
Example toy_bytes : forall k n c a p, Forall byte c -> c_dec toy k n c a = Some p -> Forall byte p.
Proof.
  intros k n c a p B. cbn [toy c_dec]. unfold toy_xdec. destruct (leqb _ _); [|discriminate]. intros [= <-].
  rewrite <- (firstn_skipn (length c - 16) c) in B. apply Forall_app in B. apply B.
Qed.
