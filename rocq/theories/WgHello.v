(** C73: a wolfGuard device accepts the initiations of a peer in the order they
    were made, each once, and at most one in five seconds. *)
From Verif Require Import Base ByteOrder Arp WgAllowedIps WgCounter WgDevice WgDeviceInv WgDeviceRun WgDeviceProps WgToy WgConf WgHandshake.

(** ** Specification *)

(** Byte strings in lexicographic order: for equally long ones, the order of the
    numbers they are the big-endian digits of. *)
Definition greater (x y : list Z) : Prop := exists l a b u v, x = l ++ a :: u /\ y = l ++ b :: v /\ b < a.

(** ** Proofs *)
Lemma lexgt_greater x : forall y, lexgt x y = true <-> greater x y.
Proof.
  induction x as [|a x IH]; intros y; cbn [lexgt].
  - split; [discriminate|]. intros (l & p & q & u & v & E & _). destruct l; discriminate.
  - destruct y as [|b y].
    + split; [discriminate|]. intros (l & p & q & u & v & _ & E & _). destruct l; discriminate.
    + destruct (Z.eqb_spec a b) as [->|N].
      * rewrite IH. split.
        -- intros (l & p & q & u & v & -> & -> & L). exists (b :: l), p, q, u, v. repeat split. exact L.
        -- intros (l & p & q & u & v & E1 & E2 & L). destruct l as [|c l]; cbn in E1, E2; [injection E1 as -> _; injection E2 as -> _; lia|].
           injection E1 as <- ->. injection E2 as ->. exists l, p, q, u, v. repeat split. exact L.
      * split.
        -- intros L. exists [], a, b, x, y. repeat split. lia.
        -- intros (l & p & q & u & v & E1 & E2 & L). destruct l as [|c l]; cbn in E1, E2; [injection E1 as -> _; injection E2 as -> _; lia|].
           injection E1 as -> _. injection E2 as -> _. congruence.
Qed.
Lemma lexgt_trans x : forall y z, lexgt x y = true -> lexgt y z = true -> lexgt x z = true.
Proof.
  induction x as [|a x IH]; intros [|b y] [|c z]; cbn [lexgt]; try discriminate.
  destruct (Z.eqb_spec a b), (Z.eqb_spec b c), (Z.eqb_spec a c); try lia; try discriminate. apply IH.
Qed.
Lemma greater_trans x y z : greater x y -> greater y z -> greater x z.
Proof. rewrite <- !lexgt_greater. apply lexgt_trans. Qed.
Lemma greater_irrefl x : ~ greater x x.
Proof. rewrite <- lexgt_greater. induction x as [|a x IH]; cbn [lexgt]; [discriminate|]. rewrite Z.eqb_refl. exact IH. Qed.

Section Hello.
Context (C : crypto).

(** What a peer function leaves alone. *)
Definition nohello (e : ev) : Prop := match e with EHello _ _ _ => False | _ => True end.
Definition still (p p' : peer) (e : list ev) : Prop :=
  p_ts p' = p_ts p /\ p_lastinit p' = p_lastinit p /\ p_active p' = p_active p /\ Forall nohello e.
Definition hact (f : act) : Prop := forall g p, still p (snd (fst (f g p))) (snd (f g p)) /\ g_now (fst (fst (f g p))) = g_now g.
Lemma still_refl p : still p p []. Proof. repeat split. constructor. Qed.
Lemma still_trans p q r e f : still p q e -> still q r f -> still p r (e ++ f).
Proof. intros (A1 & A2 & A3 & A4) (B1 & B2 & B3 & B4). repeat (split; [congruence|]). apply Forall_app. split; assumption. Qed.
Ltac st := split; [split; [reflexivity|]; split; [reflexivity|]; split; [reflexivity|]; repeat (constructor; [exact I|]); constructor|reflexivity].
Lemma h_seq f h : hact f -> hact h -> hact (seq f h).
Proof.
  intros F H g p. unfold seq. destruct (F g p) as (F1 & F2). destruct (f g p) as [[g1 p1] e1]. destruct (H g1 p1) as (H1 & H2). destruct (h g1 p1) as [[g2 p2] e2]. cbn [fst snd] in *.
  split; [exact (still_trans _ _ _ _ _ F1 H1)|congruence].
Qed.
Lemma h_pre f (u : peer -> peer) : (forall p, still p (u p) []) -> hact f -> hact (fun g p => f g (u p)).
Proof. intros U F g p. destruct (F g (u p)) as (F1 & F2). split; [exact (still_trans _ _ _ [] _ (U p) F1)|exact F2]. Qed.
Lemma h_skip : hact skip. Proof. intros g p. st. Qed.
Lemma still_stage p pkt : still p (stage p pkt) [].
Proof. unfold stage. destruct (_ <=? _); repeat split; constructor. Qed.
Lemma h_initiate i : hact (initiate C i).
Proof.
  intros g p. unfold initiate. destruct (create_initiation C g (p_hs p)) as [[g1 h1] m] eqn:E. apply create_initiation_now in E.
  destruct m as [m|]; [unfold add_macs|]; cbn [fst snd]; (split; [|exact E]); (split; [reflexivity|]; split; [reflexivity|]; split; [reflexivity|]; repeat (constructor; [exact I|]); constructor).
Qed.
Lemma h_reset : hact (reset_handshake C). Proof. intros g p. st. Qed.
Lemma h_send_init i : hact (send_initiation C i). Proof. apply h_seq; [apply h_reset|apply h_initiate]. Qed.
Lemma h_packet i pkt : hact (packet_send C i pkt).
Proof.
  intros g p. unfold packet_send. set (N := let p1 := stage p pkt in if hs_eqb (h_state (p_hs p1)) Zeroed then initiate C i g p1 else (g, p1, [])).
  assert (NS : still p (snd (fst N)) (snd N) /\ g_now (fst (fst N)) = g_now g).
  { unfold N. cbn zeta. destruct (hs_eqb _ _); [|split; [apply still_stage|reflexivity]]. apply (h_pre (initiate C i) (fun q => stage q pkt) (fun q => still_stage q pkt) (h_initiate i)). }
  clearbody N. destruct (s_cur (p_kps p)) as [s|]; [|exact NS]. destruct (negb _); [exact NS|]. cbn zeta. clear NS N.
  destruct (_ || _). { split; [|reflexivity]. cbn [fst snd]. apply (still_trans p (up_kps p (up_slot (p_kps p) s (kp_inv (slot (p_kps p) s)))) _ [] []); [repeat split; constructor|apply still_stage]. }
  destruct (_ <? _); [st|]. destruct (c_enc C _ _ _ _) as [ct|]; [|st]. set (p2 := up_tsent _ _ _). destruct (_ && _); [|st].
  destruct (h_initiate i g p2) as (X & Y). destruct (initiate C i g p2) as [[g3 p3] e3]. cbn [fst snd] in *. split; [|exact Y].
  apply (still_trans p p2 p3 [_; _] e3); [repeat split; repeat (constructor; [exact I|]); constructor|exact X].
Qed.
Lemma h_loop i n : forall j, hact (staged_loop C i n j).
Proof.
  induction n as [|n IH]; intros j g p; cbn [staged_loop]; [st|].
  destruct (h_seq _ _ (h_packet i (nth j (p_arr p) [])) (IH (S j)) g (up_stg p (lset (p_arr p) j []) (p_cnt p))) as (X & Y). split; [exact X|exact Y].
Qed.
Lemma h_staged i : hact (send_staged C i).
Proof. intros g p. unfold send_staged. destruct (h_loop i (Z.to_nat (p_cnt p)) 0 g (up_stg p (p_arr p) 0)) as (X & Y). split; [exact X|exact Y]. Qed.
Lemma h_keep i : hact (keepalive C i).
Proof.
  intros g p. unfold keepalive. destruct (s_cur (p_kps p)) as [s|]; [|st]. cbn zeta. destruct (negb _); [st|]. destruct (_ <=? _); [st|]. destruct (_ <=? _); [st|].
  destruct (c_enc C _ _ _ _); st.
Qed.
Lemma h_first i : hact (first_keepalive C i).
Proof. intros g p. unfold first_keepalive. destruct (s_cur (p_kps p)) as [s|]; [|st]. destruct (_ =? _); [apply h_keep|st]. Qed.
Lemma h_finish i x : hact x -> hact (finish C i x).
Proof.
  intros X g p. unfold finish. destruct (begin_session C i g p) as [[p1 e1]|] eqn:E; [|st]. unfold begin_session in E. destruct (_ && _); [discriminate|]. destruct (kdf2 C _ _) as [t1 t2].
  injection E as <- <-. set (p2 := up_tdone _ _). destruct (h_seq _ _ (h_staged i) X g p2) as (Y1 & Y2). destruct (seq (send_staged C i) x g p2) as [[g2 p3] e2]. cbn [fst snd] in *. split; [|exact Y2].
  apply (still_trans p p2 p3 [_] e2); [repeat split; repeat (constructor; [exact I|]); constructor|exact Y1].
Qed.
Lemma create_response_now g h g1 h1 m : create_response C g h = (g1, h1, m) -> g_now g1 = g_now g.
Proof. intros E. apply create_response_same in E. destruct E as (E & _). exact E. Qed.
Lemma h_answer i ip port : hact (answer C i ip port).
Proof.
  intros g p. unfold answer. set (p0 := up_ep p ip port). destruct (create_response C g (p_hs p0)) as [[g1 h1] m] eqn:E. apply create_response_now in E.
  destruct m as [m|]; [|split; [split; [reflexivity|]; split; [reflexivity|]; split; [reflexivity|constructor]|exact E]]. unfold add_macs. set (p2 := up_cookie _ _).
  destruct (h_finish i skip h_skip g1 p2) as (Y1 & Y2). destruct (finish C i skip g1 p2) as [[g2 p3] e2]. cbn [fst snd] in *. split; [|congruence].
  apply (still_trans p p2 p3 [_] e2); [repeat split; repeat (constructor; [exact I|]); constructor|exact Y1].
Qed.
Lemma h_ka i : hact (fun g p => let '(g1, p1, e) := keepalive C i g p in (g1, up_tka p1 (g_now g), e)).
Proof. intros g p. destruct (h_keep i g p) as (X & Y). destruct (keepalive C i g p) as [[g1 p1] e]. split; [exact X|exact Y]. Qed.
Lemma h_jitter : hact jitter. Proof. intros g p. unfold jitter. destruct (g_rng g); st. Qed.
Lemma h_js i : hact (seq jitter (send_initiation C i)). Proof. apply h_seq; [apply h_jitter|apply h_send_init]. Qed.
Lemma h_tick i : hact (tick C i).
Proof.
  assert (T1 : hact (tm_retransmit C i)).
  { intros g p. unfold tm_retransmit. destruct (_ || _); [st|]. destruct (_ <=? _); [|destruct (_ <=? _); [apply h_send_init|st]].
    st. }
  assert (T2 : hact (tm_passive C i)).
  { intros g p. unfold tm_passive. destruct (s_cur _); [|st]. destruct (negb _); [st|]. destruct (_ || _); [st|]. destruct (_ && _); [st|]. destruct (_ && _); [st|]. apply (h_ka i g p). }
  assert (T3 : hact (tm_rekey C i)).
  { intros g p. unfold tm_rekey. destruct (s_cur _); [|st]. cbn zeta. destruct (_ || _); [st|]. destruct (_ <? _); [st|]. apply (h_js i g p). }
  assert (T4 : hact (tm_stale C i)).
  { intros g p. unfold tm_stale. destruct (s_cur _); [|st]. destruct (_ || _); [st|]. destruct (_ && _); [st|]. destruct (_ && _); [st|]. apply (h_js i g p). }
  assert (T5 : hact (tm_zero C)).
  { intros g p. unfold tm_zero. destruct (s_cur _); [|st]. destruct (_ <? _); st. }
  assert (T6 : hact (tm_persistent C i)).
  { intros g p. unfold tm_persistent. destruct (_ =? _); [st|]. destruct (s_cur _); [|st]. destruct (negb _); [st|]. destruct (_ && _); [st|]. apply (h_ka i g p). }
  intros g p. unfold tick. destruct (negb _); [st|]. apply (h_seq _ _ T1 (h_seq _ _ T2 (h_seq _ _ T3 (h_seq _ _ T4 (h_seq _ _ T5 T6)))) g p).
Qed.

(** ** The device *)
Lemma nohello_upH i e : Forall nohello e -> forall acc, fold_left (upH i) e acc = acc.
Proof. intros F. induction F as [|x e H F IH]; intros acc; [reflexivity|]. cbn [fold_left]. rewrite IH. destruct x; try reflexivity; destruct H. Qed.

Definition after (i : Z) (x : list ev) (ts : list Z) (t : Z) : Prop :=
  match last_hello i x with None => True | Some (ts0, t0) => greater ts ts0 /\ t0 <= t /\ (0 < t0 -> t0 + 5000 <= t) end.
Definition ordered (tr : list ev) : Prop := forall x i ts t y, tr = x ++ EHello i ts t :: y -> after i x ts t.
Lemma app_split {X} (a b x y : list X) e : a ++ b = x ++ e :: y ->
  (exists z, a = x ++ e :: z /\ y = z ++ b) \/ (exists z, x = a ++ z /\ b = z ++ e :: y).
Proof.
  revert x. induction a as [|h a IH]; intros x E; cbn in E; [right; exists x; split; [reflexivity|exact E]|].
  destruct x as [|h' x]; cbn in E; [injection E as -> <-; left; exists a; split; reflexivity|]. injection E as -> E. destruct (IH x E) as [(z & -> & ->)|(z & -> & ->)]; [left|right]; exists z; split; reflexivity.
Qed.
Lemma ordered_nohello tr e : ordered tr -> Forall nohello e -> ordered (tr ++ e).
Proof.
  intros O F x i ts t y E. apply app_split in E. destruct E as [(z & E & _)|(z & _ & E)]; [exact (O _ _ _ _ _ E)|]. exfalso. rewrite E in F. apply Forall_app in F. destruct F as (_ & F).
  inversion F as [|? ? H _]; subst. exact H.
Qed.
Lemma ordered_snoc tr i ts t : ordered tr -> after i tr ts t -> ordered (tr ++ [EHello i ts t]).
Proof.
  intros O F x j us u y E. apply app_split in E. destruct E as [(z & E & _)|(z & Ex & E)]; [exact (O _ _ _ _ _ E)|]. destruct z as [|h z]; [|destruct z; discriminate].
  cbn in E. injection E as <- <- <- _. rewrite Ex, app_nil_r. exact F.
Qed.

Definition HP (now : Z) (p : peer) (lh : option (list Z * Z)) : Prop :=
  match lh with None => p_lastinit p = 0 | Some (ts, t) => p_ts p = ts /\ p_lastinit p = t /\ 0 <= t <= now /\ p_active p = true end.
Definition HJ (d : dev) (tr : list ev) : Prop :=
  length (snd d) = 8%nat /\ ordered tr /\ forall i, (i < 8)%nat -> HP (g_now (fst d)) (nth i (snd d) peer_zero) (last_hello (Z.of_nat i) tr).

Lemma HP_still now p p' e lh : still p p' e -> HP now p lh -> HP now p' lh.
Proof. intros (E1 & E2 & E3 & _). unfold HP. rewrite E1, E2, E3. auto. Qed.
Lemma HJ_on_peer d i f tr : (i < 8)%nat -> hact f -> HJ d tr -> HJ (fst (on_peer d i f)) (tr ++ snd (on_peer d i f)).
Proof.
  intros Hi F (L & O & P). unfold on_peer. destruct (F (fst d) (nth i (snd d) peer_zero)) as (S1 & S2). destruct (f _ _) as [[g1 p1] e]. cbn [fst snd] in *.
  split; [cbn [snd]; rewrite lset_length; exact L|]. split; [apply ordered_nohello; [exact O|apply S1]|]. cbn [fst snd]. intros j Hj. rewrite S2, last_hello_app, nohello_upH by apply S1.
  destruct (Nat.eq_dec j i) as [->|NJ]; [rewrite nth_lset_eq by lia; apply (HP_still _ _ _ _ _ S1), P, Hj|]. rewrite nth_lset_ne by exact NJ. apply P, Hj.
Qed.
Lemma HJ_tick_all n : forall d i tr, (i + n <= 8)%nat -> HJ d tr -> HJ (fst (tick_all C d n i)) (tr ++ snd (tick_all C d n i)).
Proof.
  induction n as [|n IH]; intros d i tr Hi H; cbn [tick_all]; [cbn [fst snd]; rewrite app_nil_r; exact H|].
  pose proof (HJ_on_peer d i _ tr ltac:(lia) (h_tick (Z.of_nat i)) H) as H1. destruct (on_peer d i _) as [d1 e1]. cbn [fst snd] in *.
  specialize (IH d1 (S i) _ ltac:(lia) H1). destruct (tick_all C d1 n (S i)) as [d2 e2]. cbn [fst snd] in *. rewrite app_assoc. exact IH.
Qed.
Lemma HJ_g g g' ps tr : g_now g <= g_now g' -> HJ (g, ps) tr -> HJ (g', ps) tr.
Proof.
  intros N (L & O & P). split; [exact L|]. split; [exact O|]. intros i Hi. specialize (P i Hi). cbn [fst snd] in *. unfold HP in *. destruct (last_hello _ _) as [[ts t]|]; [|exact P].
  destruct P as (P1 & P2 & P3 & P4). repeat (split; [assumption|]). split; [lia|exact P4].
Qed.
Lemma HJ_events d tr e : Forall nohello e -> HJ d tr -> HJ d (tr ++ e).
Proof.
  intros F (L & O & P). split; [exact L|]. split; [apply ordered_nohello; assumption|]. intros i Hi. rewrite last_hello_app, nohello_upH by exact F. apply P, Hi.
Qed.
Lemma HJ_set g ps i p e tr : (i < 8)%nat -> still (nth i ps peer_zero) p e -> HJ (g, ps) tr -> HJ (g, lset ps i p) (tr ++ e).
Proof.
  intros Hi S (L & O & P). split; [cbn [snd] in *; rewrite lset_length; exact L|]. split; [apply ordered_nohello; [exact O|apply S]|]. cbn [fst snd] in *. intros j Hj.
  rewrite last_hello_app, nohello_upH by apply S. destruct (Nat.eq_dec j i) as [->|NJ]; [rewrite nth_lset_eq by lia; apply (HP_still _ _ _ _ _ S), P, Hj|]. rewrite nth_lset_ne by exact NJ. apply P, Hj.
Qed.
Lemma send_reply_facts d b off ip port : snd (fst (send_reply C d b off ip port)) = snd d /\ g_now (fst (fst (send_reply C d b off ip port))) = g_now (fst d) /\
  (snd (send_reply C d b off ip port) = [] \/ exists r, snd (send_reply C d b off ip port) = [EUdp ip port (le32 3 ++ r)]).
Proof.
  unfold send_reply, create_reply. destruct (_ <? _).
  - destruct (g_rng (fst d)) as [|b0 r]; cbn [negb]; [repeat split; left; reflexivity|]. cbn [up_chk g_rng up_rng]. destruct r as [|nc r]; [repeat split; left; reflexivity|].
    destruct (c_xenc C _ _ _ _); [repeat split; right; eexists; reflexivity|repeat split; left; reflexivity].
  - cbn [negb]. destruct (g_rng (fst d)) as [|b0 r]; [repeat split; left; reflexivity|]. destruct (c_xenc C _ _ _ _); [repeat split; right; eexists; reflexivity|repeat split; left; reflexivity].
Qed.
Lemma HJ_reply d b off ip port tr : HJ d tr -> HJ (fst (send_reply C d b off ip port)) (tr ++ snd (send_reply C d b off ip port)).
Proof.
  intros H. destruct (send_reply_facts d b off ip port) as (E1 & E2 & E3). destruct (send_reply C d b off ip port) as [[g' ps'] e]. cbn [fst snd] in *. subst ps'. destruct d as [g ps]. cbn [fst snd] in *.
  apply HJ_events; [destruct E3 as [->|(r & ->)]; repeat constructor|]. apply (HJ_g g g' ps tr); [lia|exact H].
Qed.

Lemma output_bound l act pkt i : wolfguard_output l act pkt = Some i -> 0 <= i < 8.
Proof.
  unfold wolfguard_output. destruct (zlen pkt <? 20); [discriminate|]. destruct (negb _); [discriminate|]. cbn zeta.
  destruct ((aips_lookup l (load_le32 (skipn 16 pkt)) <? 0) || (8 <=? aips_lookup l (load_le32 (skipn 16 pkt)))) eqn:EB; [discriminate|].
  apply orb_false_iff in EB. destruct EB as (EB1 & EB2). destruct (negb _); [discriminate|]. intros E. assert (E2 : aips_lookup l (load_le32 (skipn 16 pkt)) = i) by congruence. lia.
Qed.
Lemma HJ_step d o r tr : HJ d tr -> 0 <= g_now (fst d) < 2 ^ 64 -> op_ok (g_now (fst d)) o -> HJ (fst (step C d o r)) (tr ++ snd (step C d o r)).
Proof.
  intros H0 HN HO. unfold step. set (d0 := (up_rng (fst d) r, snd d)).
  assert (H : HJ d0 tr) by (destruct d as [g ps]; apply (HJ_g g _ ps tr); [cbn; lia|exact H0]). assert (N0 : g_now (fst d0) = g_now (fst d)) by reflexivity.
  rewrite <- N0 in HN, HO. clearbody d0. clear H0 N0 d.
  destruct o as [priv|pub psk ip port ka|i ip cidr|pkt|now|b ip port]; cbn [snd fst]; rewrite ?app_nil_r.
  - unfold set_private_key. destruct (c_pub C priv) as [pb|]; [|destruct d0 as [g ps]; apply (HJ_g g _ ps tr); [cbn; lia|exact H]].
    destruct H as (L & O & P). split; [cbn [snd]; rewrite map_length; exact L|]. split; [exact O|]. cbn [fst snd up_key g_now]. intros i Hi. specialize (P i Hi).
    rewrite (nth_indep _ peer_zero (rekey_peer C priv peer_zero)) by (rewrite map_length; lia). rewrite map_nth. unfold rekey_peer. destruct (negb _); [exact P|]. exact P.
  - unfold add_peer. destruct (find_free (snd d0) 0) as [j|] eqn:E; [|exact H]. apply find_free_spec in E. rewrite Nat.sub_0_r in E. destruct E as (E1 & E2 & _).
    destruct H as (L & O & P). split; [cbn [snd]; rewrite lset_length; exact L|]. split; [exact O|]. cbn [fst snd]. intros i Hi. specialize (P i Hi).
    destruct (Nat.eq_dec i j) as [->|NJ]; [|rewrite nth_lset_ne by exact NJ; exact P]. rewrite nth_lset_eq by lia. unfold HP in *. destruct (last_hello _ _) as [[ts t]|]; [|reflexivity].
    destruct P as (_ & _ & _ & P). congruence.
  - unfold add_allowed. destruct (_ || _); [exact H|]. destruct (negb _); [exact H|]. destruct d0 as [g ps]. apply (HJ_g g _ ps tr); [cbn; lia|exact H].
  - unfold output. destruct (wolfguard_output _ _ pkt) as [i|] eqn:EO; [|cbn [fst snd]; rewrite app_nil_r; exact H]. apply output_bound in EO.
    pose proof (HJ_on_peer d0 (Z.to_nat i) (packet_send C i pkt) _ ltac:(lia) (h_packet i pkt) (HJ_events d0 tr [EOut i pkt] ltac:(repeat constructor) H)) as X.
    destruct (on_peer _ _ _) as [d' e]. cbn [fst snd] in *. rewrite <- app_assoc in X. exact X.
  - unfold poll. apply HJ_tick_all; [lia|]. destruct d0 as [g ps]. apply (HJ_g g _ ps tr); [cbn in *; lia|exact H].
  - unfold packet_receive. assert (HE : HJ d0 (tr ++ [])) by (rewrite app_nil_r; exact H). destruct (zlen b <? 4); [exact HE|]. cbn zeta. destruct d0 as [g ps].
    pose proof H as (L & O & P). cbn [fst snd] in L, P.
    assert (H1 : HJ (up_hpc g (u16 (g_hpc g + 1)), ps) (tr ++ [])) by (apply (HJ_g g _ ps (tr ++ [])); [cbn; lia|exact HE]).
    destruct (_ =? 1); [|destruct (_ =? 2); [|destruct (_ =? 3); [|destruct (_ =? 4); [|exact HE]]]].
    + unfold handle_initiation. destruct (zlen b <? INIT_LEN); [exact HE|].
      assert (QQ : forall st, let res := (if g_load g && negb (match st with MacCookie => true | _ => false end)
        then send_reply C (g, ps) b (Z.to_nat INIT_MAC) ip port else let g1 := up_hpc g (u16 (g_hpc g + 1)) in
        match consume_initiation C g1 ps b with None => ((g1, ps), []) | Some (i, p, ts) =>
          let (d', e) := on_peer (g1, lset ps i p) i (answer C (Z.of_nat i) ip port) in (d', EHello (Z.of_nat i) ts (g_now g) :: e) end) in HJ (fst res) (tr ++ snd res)).
      { intros st. cbn zeta. match goal with |- context [if ?x then send_reply _ _ _ _ _ _ else _] => destruct x end; [apply HJ_reply, H|].
        set (g1 := up_hpc _ _) in *. assert (EG : g_now g1 = g_now g) by reflexivity. clearbody g1. destruct (consume_initiation C g1 ps b) as [[[k p] ts]|] eqn:EC; [|exact H1].
        pose proof (consume_initiation_facts C _ _ _ _ _ _ EC) as (X1 & _ & _ & _ & X2 & _ & X3 & X4 & X5 & X6). rewrite EG in X5, X6.
        assert (XA : p_active (nth k ps peer_zero) = true).
        { revert EC. unfold consume_initiation. destruct (c_dh C _ _); [|discriminate]. destruct (kdf2 C _ _) as [ck2 key]. destruct (c_dec C _ _ _ _) as [sp|]; [|discriminate]. cbn zeta.
          destruct (find_pub ps sp 0) as [k'|] eqn:EP; [|discriminate]. apply find_pub_active in EP. rewrite Nat.sub_0_r in EP. destruct (_ && _); [discriminate|]. destruct (kdf2 C ck2 _) as [ck3 key2].
          destruct (c_dec C _ _ _ _) as [ts'|]; [|discriminate]. destruct (negb _); [discriminate|]. intros [= <- _ _]. apply EP. }
        rewrite L in X1. pose proof (P k X1) as PK.
        assert (AF : after (Z.of_nat k) tr ts (g_now g)).
        { unfold after. unfold HP in PK. destruct (last_hello _ _) as [[ts0 t0]|]; [|exact I]. destruct PK as (P1 & P2 & P3 & _). rewrite P1 in X3. rewrite P2 in X6. split; [apply lexgt_greater, X3|]. cbn [fst] in *. split; [lia|].
          intros T0. specialize (X6 T0). unfold REKEY_TIMEOUT_MS, u64 in X6. rewrite Z.mod_small in X6 by lia. lia. }
        assert (H2 : HJ (g1, lset ps k p) (tr ++ [EHello (Z.of_nat k) ts (g_now g)])).
        { split; [cbn [snd]; rewrite lset_length; exact L|]. split; [apply ordered_snoc; assumption|]. cbn [fst snd]. rewrite EG. intros j Hj. rewrite last_hello_app. cbn [fold_left upH].
          destruct (Nat.eq_dec j k) as [->|NJ].
          - rewrite Z.eqb_refl, nth_lset_eq by lia. cbn [HP]. split; [exact X4|]. split; [exact X5|]. split; [cbn [fst] in *; lia|]. congruence.
          - destruct (Z.eqb_spec (Z.of_nat k) (Z.of_nat j)); [lia|]. rewrite nth_lset_ne by exact NJ. apply P, Hj. }
        pose proof (HJ_on_peer _ k _ _ X1 (h_answer (Z.of_nat k) ip port) H2) as X. destruct (on_peer _ _ _) as [d' e]. cbn [fst snd] in *. rewrite <- app_assoc in X. exact X. }
      destruct (cookie_validate C (g_chk g) b (Z.to_nat INIT_MAC) ip port (g_now g)); [exact HE|exact (QQ MacValid)|exact (QQ MacCookie)].
    + unfold handle_response. destruct (zlen b <? RESP_LEN); [exact HE|].
      assert (QQ : forall st, let res := (if g_load g && negb (match st with MacCookie => true | _ => false end)
        then send_reply C (g, ps) b (Z.to_nat RESP_MAC) ip port else let g1 := up_hpc g (u16 (g_hpc g + 1)) in
        match find_wait ps (mr_receiver b) 0 with None => ((g1, ps), []) | Some i => let p := nth i ps peer_zero in
          match consume_response C g1 (p_hs p) b with None => ((g1, ps), []) | Some h1 =>
             on_peer (g1, lset ps i (up_ep (up_hs p h1) ip port)) i (finish C (Z.of_nat i) (first_keepalive C (Z.of_nat i))) end end) in HJ (fst res) (tr ++ snd res)).
      { intros st. cbn zeta. match goal with |- context [if ?x then send_reply _ _ _ _ _ _ else _] => destruct x end; [apply HJ_reply, H|].
        destruct (find_wait ps (mr_receiver b) 0) as [k|] eqn:EF; [|exact H1]. apply find_wait_bound in EF.
        destruct (consume_response C _ (p_hs (nth k ps peer_zero)) b) as [h1|] eqn:EC; [|exact H1].
        apply HJ_on_peer; [lia|apply h_finish, h_first|]. rewrite <- (app_nil_r tr). apply HJ_set; [lia|repeat split; constructor|]. rewrite app_nil_r in H1. exact H1. }
      destruct (cookie_validate C (g_chk g) b (Z.to_nat RESP_MAC) ip port (g_now g)); [exact HE|exact (QQ MacValid)|exact (QQ MacCookie)].
    + unfold handle_cookie. destruct (zlen b <? 72); [exact HE|]. destruct (find_mac1 _ _ 0) as [k|] eqn:EF; [|exact HE]. cbn [fst snd]. apply find_mac1_bound in EF.
      apply (HJ_set g ps k _ [] tr); [lia|repeat split; constructor|exact H].
    + unfold handle_data. destruct (zlen b <? 32); [exact HE|]. cbn zeta. destruct (find_idx ps _ 0) as [[k s]|] eqn:EF; [|exact HE]. apply find_idx_spec in EF.
      destruct (negb _); [exact HE|]. destruct (_ <=? _); [exact HE|]. destruct (_ <? _); [exact HE|]. destruct (c_dec _ _ _ _ _) as [pt|]; [|exact HE].
      destruct (wg_counter_validate _ _) as [rx ok]. destruct ok; cbn [negb fst snd].
      * apply (HJ_set g ps k _ _ tr); [lia| |exact H]. destruct (wg_inject _ _ _); (repeat split; repeat constructor).
      * apply (HJ_set g ps k _ [] tr); [lia|repeat split; constructor|exact H].
Qed.

Lemma HJ_run ops : forall d tr, dev_wf d -> HJ d tr -> 0 <= g_now (fst d) < 2 ^ 64 -> hist_ok (g_now (fst d)) ops -> HJ (fst (run C d ops)) (tr ++ snd (run C d ops)).
Proof.
  induction ops as [|(o, r) ops IH]; intros d tr W H HN HH; cbn [run]; [cbn [fst snd]; rewrite app_nil_r; exact H|]. destruct HH as (H1 & H2).
  pose proof (HJ_step d o r tr H HN H1) as X. destruct (step_ok C d o r W H1) as ((W1 & _) & E). destruct (step C d o r) as [d1 e1]. cbn [fst snd] in *. rewrite <- E in H2.
  assert (HN1 : 0 <= g_now (fst d1) < 2 ^ 64) by (rewrite E; destruct o; cbn [op_ok op_now] in *; lia).
  specialize (IH d1 (tr ++ e1) W1 X HN1 H2). destruct (run C d1 ops) as [d2 e2]. cbn [fst snd] in *. rewrite app_assoc. exact IH.
Qed.
Lemma HJ_all ops : hist_ok 0 ops -> HJ (fst (run C dev_init ops)) (trace C ops).
Proof.
  intros H. apply (HJ_run ops dev_init []); [apply dev_init_wf| |cbn; lia|exact H]. split; [reflexivity|]. split; [intros x i ts t y E; destruct x; discriminate|].
  intros i Hi. cbn [last_hello fold_left HP]. do 8 (destruct i as [|i]; [reflexivity|]). lia.
Qed.

Lemma ordered_last tr i : ordered tr -> forall ts t, In (EHello i ts t) tr ->
  exists ts0 t0, last_hello i tr = Some (ts0, t0) /\ ((ts = ts0 /\ t = t0) \/ (greater ts0 ts /\ t <= t0 /\ (0 < t -> t + 5000 <= t0))).
Proof.
  induction tr as [|e tr IH] using rev_ind; intros O ts t HI; [destruct HI|].
  assert (O' : ordered tr) by (intros x j us u y E; apply (O x j us u (y ++ [e])); rewrite E, <- app_assoc; reflexivity).
  apply in_app_iff in HI. rewrite last_hello_app. destruct HI as [HI|[->|[]]].
  - destruct (IH O' ts t HI) as (ts0 & t0 & E & D). rewrite E. destruct e as [| | | | | |j us u| |]; try (exists ts0, t0; split; [reflexivity|exact D]).
    cbn [fold_left upH]. destruct (Z.eqb_spec j i) as [->|N]; [|exists ts0, t0; split; [reflexivity|exact D]]. exists us, u. split; [reflexivity|right].
    pose proof (O tr i us u [] eq_refl) as A. unfold after in A. rewrite E in A. destruct A as (A1 & A2 & A3). destruct D as [(-> & ->)|(D1 & D2 & D3)]; [split; [exact A1|split; assumption]|].
    split; [exact (greater_trans _ _ _ A1 D1)|]. split; lia.
  - cbn [fold_left upH]. rewrite Z.eqb_refl. exists ts, t. split; [reflexivity|left; split; reflexivity].
Qed.

(** C73.  Whatever arrives, in whatever order and however often: the initiations a
    device accepts from one peer carry ever greater timestamps, and (from the clock's
    first millisecond on) five seconds lie between two of them. *)
Theorem wg_initiations_advance : forall ops, hist_ok 0 ops ->
  forall i x ts t y ts' t' z, trace C ops = x ++ EHello i ts t :: y ++ EHello i ts' t' :: z ->
  greater ts' ts /\ t <= t' /\ (0 < t -> t + 5000 <= t').
Proof.
  intros ops H i x ts t y ts' t' z E. destruct (HJ_all ops H) as (_ & O & _).
  assert (E2 : trace C ops = (x ++ EHello i ts t :: y) ++ EHello i ts' t' :: z) by (rewrite E, <- app_assoc; reflexivity).
  pose proof (O _ _ _ _ _ E2) as A.
  assert (O' : ordered (x ++ EHello i ts t :: y)) by (intros x0 j us u y0 EE; apply (O x0 j us u (y0 ++ EHello i ts' t' :: z)); rewrite E2, EE, <- app_assoc; reflexivity).
  destruct (ordered_last _ i O' ts t ltac:(apply in_or_app; right; left; reflexivity)) as (ts0 & t0 & EL & D). unfold after in A. rewrite EL in A. destruct A as (A1 & A2 & A3).
  destruct D as [(-> & ->)|(D1 & D2 & D3)]; [split; [exact A1|split; assumption]|]. split; [exact (greater_trans _ _ _ A1 D1)|]. split; lia.
Qed.

(** ** A replayed initiation *)
Lemma find_pub_same ps ps' spub j : forall i, find_pub ps spub i = Some (i + j)%nat -> (j < length ps')%nat ->
  (forall k, (k <= j)%nat -> p_active (nth k ps' peer_zero) = p_active (nth k ps peer_zero) /\ p_pub (nth k ps' peer_zero) = p_pub (nth k ps peer_zero)) ->
  find_pub ps' spub i = Some (i + j)%nat.
Proof.
  revert ps ps'. induction j as [|j IH]; intros ps ps' i H L E; destruct ps' as [|p' ps']; try (cbn in L; lia); destruct ps as [|p ps]; try discriminate; cbn [find_pub] in *.
  - destruct (E 0%nat ltac:(lia)) as (E1 & E2). cbn [nth] in E1, E2. rewrite E1, E2. destruct (_ && _); [exact H|]. apply find_pub_bound in H. lia.
  - destruct (E 0%nat ltac:(lia)) as (E1 & E2). cbn [nth] in E1, E2. rewrite E1, E2. destruct (_ && _); [injection H; lia|].
    replace (i + S j)%nat with (S i + j)%nat in * by lia. apply (IH ps ps' (S i) H); [cbn in L; lia|]. intros k Hk. exact (E (S k) ltac:(lia)).
Qed.

(** What decides whether an initiation is accepted. *)
Lemma consume_again g1 ps1 g2 ps2 m i p ts : consume_initiation C g1 ps1 m = Some (i, p, ts) -> g_priv g2 = g_priv g1 -> g_pub g2 = g_pub g1 -> (i < length ps2)%nat ->
  (forall k, (k <= i)%nat -> p_active (nth k ps2 peer_zero) = p_active (nth k ps1 peer_zero) /\ p_pub (nth k ps2 peer_zero) = p_pub (nth k ps1 peer_zero)) ->
  h_ss (p_hs (nth i ps2 peer_zero)) = h_ss (p_hs (nth i ps1 peer_zero)) -> lexgt ts (p_ts (nth i ps2 peer_zero)) = false ->
  consume_initiation C g2 ps2 m = None.
Proof.
  unfold consume_initiation. intros H -> -> L EK ES EL. destruct (c_dh C (g_priv g1) (mi_eph m)) as [dh|]; [|reflexivity]. destruct (kdf2 C _ dh) as [ck2 key].
  destruct (c_dec C key 0 _ _) as [spub|]; [|reflexivity]. destruct (find_pub ps1 spub 0) as [j|] eqn:EF; [|discriminate]. cbn zeta in *.
  destruct (_ && _); [discriminate|]. destruct (kdf2 C ck2 _) as [ck3 key2] eqn:EK2 in H. destruct (c_dec C key2 0 _ _) as [t|] eqn:ED; [|discriminate].
  destruct (negb _); [discriminate|]. injection H as -> _ ->. rewrite (find_pub_same ps1 ps2 spub i 0 EF L EK). cbn [Nat.add]. destruct (_ && _); [reflexivity|]. rewrite ES, EK2, ED, EL. reflexivity.
Qed.
Lemma no_hello_events e i : Forall nohello e -> forall ts t, ~ In (EHello i ts t) e.
Proof. intros F ts t H. rewrite Forall_forall in F. exact (F _ H). Qed.

Lemma step_hello d b ip port r i ts t : In (EHello i ts t) (snd (step C d (ORecv b ip port) r)) -> (zlen b <? 4) = false /\ (rdle32 b =? 1) = true /\ (zlen b <? INIT_LEN) = false /\
  exists k p, i = Z.of_nat k /\ consume_initiation C (up_hpc (up_rng (fst d) r) (u16 (g_hpc (fst d) + 1))) (snd d) b = Some (k, p, ts).
Proof.
  unfold step, packet_receive. intros H. destruct (zlen b <? 4); [destruct H|]. split; [reflexivity|]. cbn zeta in H. destruct (_ =? 1).
  - split; [reflexivity|]. unfold handle_initiation in H. destruct (zlen b <? INIT_LEN); [destruct H|]. split; [reflexivity|].
    assert (QQ : forall st, In (EHello i ts t) (snd (if g_load (up_rng (fst d) r) && negb (match st with MacCookie => true | _ => false end)
        then send_reply C (up_rng (fst d) r, snd d) b (Z.to_nat INIT_MAC) ip port else let g1 := up_hpc (up_rng (fst d) r) (u16 (g_hpc (fst d) + 1)) in
        match consume_initiation C g1 (snd d) b with None => ((g1, snd d), []) | Some (i, p, ts) =>
          let (d', e) := on_peer (g1, lset (snd d) i p) i (answer C (Z.of_nat i) ip port) in (d', EHello (Z.of_nat i) ts (g_now (up_rng (fst d) r)) :: e) end)) ->
      exists k p, i = Z.of_nat k /\ consume_initiation C (up_hpc (up_rng (fst d) r) (u16 (g_hpc (fst d) + 1))) (snd d) b = Some (k, p, ts)).
    { intros st. cbn zeta. match goal with |- context [if ?x then send_reply _ _ _ _ _ _ else _] => destruct x end.
      - destruct (send_reply_facts (up_rng (fst d) r, snd d) b (Z.to_nat INIT_MAC) ip port) as (_ & _ & [->|(x & ->)]); [intros []|intros [X|[]]; discriminate].
      - destruct (consume_initiation C _ _ _) as [[[k p] ts0]|] eqn:EC; [|intros []]. unfold on_peer.
        destruct (h_answer (Z.of_nat k) ip port (up_hpc (up_rng (fst d) r) (u16 (g_hpc (fst d) + 1))) (nth k (lset (snd d) k p) peer_zero)) as ((_ & _ & _ & F) & _).
        cbn [fst snd] in *. destruct (answer C _ _ _ _ _) as [[g1 p1] e]. cbn [fst snd] in *. intros [X|X]; [|exfalso; exact (no_hello_events _ _ F _ _ X)]. injection X as <- <- _. exists k, p. split; reflexivity. }
    destruct (cookie_validate C _ b (Z.to_nat INIT_MAC) ip port _); [destruct H|exact (QQ MacValid H)|exact (QQ MacCookie H)].
  - exfalso. destruct (_ =? 2); [|destruct (_ =? 3); [|destruct (_ =? 4); [|destruct H]]].
    + unfold handle_response in H. destruct (zlen b <? RESP_LEN); [destruct H|].
      assert (QQ : forall st, ~ In (EHello i ts t) (snd (if g_load (up_rng (fst d) r) && negb (match st with MacCookie => true | _ => false end)
        then send_reply C (up_rng (fst d) r, snd d) b (Z.to_nat RESP_MAC) ip port else let g1 := up_hpc (up_rng (fst d) r) (u16 (g_hpc (fst d) + 1)) in
        match find_wait (snd d) (mr_receiver b) 0 with None => ((g1, snd d), []) | Some i => let p := nth i (snd d) peer_zero in
          match consume_response C g1 (p_hs p) b with None => ((g1, snd d), []) | Some h1 =>
             on_peer (g1, lset (snd d) i (up_ep (up_hs p h1) ip port)) i (finish C (Z.of_nat i) (first_keepalive C (Z.of_nat i))) end end))).
      { intros st. cbn zeta. match goal with |- context [if ?x then send_reply _ _ _ _ _ _ else _] => destruct x end.
        - destruct (send_reply_facts (up_rng (fst d) r, snd d) b (Z.to_nat RESP_MAC) ip port) as (_ & _ & [->|(x & ->)]); [intros []|intros [X|[]]; discriminate].
        - destruct (find_wait _ _ 0) as [k|]; [|intros []]. destruct (consume_response C _ _ b) as [h1|]; [|intros []]. unfold on_peer.
          match goal with |- context [finish C ?i ?x ?g ?p] => destruct (h_finish i x (h_first i) g p) as ((_ & _ & _ & F) & _); destruct (finish C i x g p) as [[g2 p2] e] end.
          cbn [fst snd] in *. apply no_hello_events, F. }
      destruct (cookie_validate C _ b (Z.to_nat RESP_MAC) ip port _); [destruct H|exact (QQ MacValid H)|exact (QQ MacCookie H)].
    + unfold handle_cookie in H. destruct (zlen b <? 72); [destruct H|]. destruct (find_mac1 _ _ 0); destruct H.
    + unfold handle_data in H. destruct (zlen b <? 32); [destruct H|]. cbn zeta in H. destruct (find_idx _ _ 0) as [[k s]|]; [|destruct H].
      destruct (negb _); [destruct H|]. destruct (_ <=? _); [destruct H|]. destruct (_ <? _); [destruct H|]. destruct (c_dec _ _ _ _ _) as [pt|]; [|destruct H].
      destruct (wg_counter_validate _ _) as [rx ok]. destruct ok; cbn [negb fst snd] in H; [|destruct H]. destruct (wg_inject _ _ _); cbn in H; intuition discriminate.
Qed.

(** C73, second part.  An initiation that was accepted once has no effect ever
    after: no peer changes, nothing is sent - or, under load, only a cookie reply
    (message type 3) to where it came from. *)
Theorem wg_replay_ignored : forall a A ra ops1 m ip port r ops2 ip' port' r',
  c_pub C a = Some A -> no_rekey ops1 -> no_rekey ops2 ->
  hist_ok 0 ((OKey a, ra) :: ops1 ++ (ORecv m ip port, r) :: ops2) ->
  (* the peers' public keys are valid *)
  (forall pub psk, In (pub, psk) (peers_of ops1) -> c_dh C a pub <> None) ->
  (* [m] is accepted after [ops1] *)
  (exists i ts t, In (EHello i ts t) (snd (step C (fst (run C dev_init ((OKey a, ra) :: ops1))) (ORecv m ip port) r))) ->
  let d := fst (run C dev_init ((OKey a, ra) :: ops1 ++ (ORecv m ip port, r) :: ops2)) in
  let again := step C d (ORecv m ip' port') r' in
  snd (fst again) = snd d /\
  (snd again = [] \/ g_load (fst d) = true /\ exists reply, snd again = [EUdp ip' port' (le32 3 ++ reply)]).
Proof.
  intros a A ra ops1 m ip port r ops2 ip' port' r' HP NK1 NK2 HO HV (i & ts & t & HI) d again.
  pose proof (CI_all C a A ops1 ra HP NK1) as C1. set (d1 := fst (run C dev_init ((OKey a, ra) :: ops1))) in *.
  assert (NK : no_rekey (ops1 ++ (ORecv m ip port, r) :: ops2)) by (apply Forall_app; split; [exact NK1|constructor; [exact I|exact NK2]]).
  pose proof (CI_all C a A _ ra HP NK) as C2. fold d in C2. rewrite peers_of_app in C2. change (peers_of ((ORecv m ip port, r) :: ops2)) with (peers_of ops2) in C2.
  pose proof (HJ_all _ HO) as (L2 & OR & HP2). fold d in L2, HP2.
  assert (HIN : In (EHello i ts t) (trace C ((OKey a, ra) :: ops1 ++ (ORecv m ip port, r) :: ops2))).
  { unfold trace. change ((OKey a, ra) :: ops1 ++ (ORecv m ip port, r) :: ops2) with (((OKey a, ra) :: ops1) ++ (ORecv m ip port, r) :: ops2). rewrite run_app. cbn [snd]. apply in_or_app. right. fold d1.
    cbn [run]. destruct (step C d1 (ORecv m ip port) r) as [d3 e3]. cbn [snd] in HI. destruct (run C d3 ops2) as [d4 e4]. cbn [snd]. apply in_or_app. left. exact HI. }
  apply step_hello in HI. destruct HI as (B1 & B2 & B3 & k & p & -> & EC).
  pose proof (consume_initiation_facts C _ _ _ _ _ _ EC) as (K1 & _). destruct C1 as (L1 & G1 & P1). destruct C2 as (_ & G2 & P2). rewrite L1 in K1.
  assert (XA : p_active (nth k (snd d1) peer_zero) = true).
  { revert EC. unfold consume_initiation. destruct (c_dh C _ _); [|discriminate]. destruct (kdf2 C _ _) as [ck2 key]. destruct (c_dec C _ _ _ _) as [sp|]; [|discriminate]. cbn zeta.
    destruct (find_pub (snd d1) sp 0) as [k'|] eqn:EP; [|discriminate]. apply find_pub_active in EP. rewrite Nat.sub_0_r in EP. destruct (_ && _); [discriminate|]. destruct (kdf2 C ck2 _) as [ck3 key2].
    destruct (c_dec C _ _ _ _) as [ts'|]; [|discriminate]. destruct (negb _); [discriminate|]. intros [= <- _ _]. apply EP. }
  assert (KL : (k < length (peers_of ops1))%nat).
  { apply nth_error_Some. intros EN. pose proof (P1 k K1) as X. rewrite EN in X. destruct X as (X & _). congruence. }
  assert (SAME : forall j, (j <= k)%nat -> exists pub psk, nth_error (peers_of ops1) j = Some (pub, psk) /\
     PI C a A pub psk (nth j (snd d1) peer_zero) (last_init (Z.of_nat j) (snd (run C dev_init ((OKey a, ra) :: ops1)))) (last_hello (Z.of_nat j) (snd (run C dev_init ((OKey a, ra) :: ops1)))) /\
     PI C a A pub psk (nth j (snd d) peer_zero) (last_init (Z.of_nat j) (snd (run C dev_init ((OKey a, ra) :: ops1 ++ (ORecv m ip port, r) :: ops2)))) (last_hello (Z.of_nat j) (snd (run C dev_init ((OKey a, ra) :: ops1 ++ (ORecv m ip port, r) :: ops2))))).
  { intros j Hj. destruct (nth_error (peers_of ops1) j) as [[pub psk]|] eqn:EN; [|apply nth_error_None in EN; lia]. exists pub, psk. split; [reflexivity|]. pose proof (P1 j ltac:(lia)) as X. rewrite EN in X.
    pose proof (P2 j ltac:(lia)) as Y. rewrite nth_error_app1, EN in Y by lia. split; assumption. }
  assert (EN : consume_initiation C (up_hpc (up_rng (fst d) r') (u16 (g_hpc (fst d) + 1))) (snd d) m = None).
  { eapply (consume_again _ _ _ _ _ _ _ _ EC).
    - cbn. rewrite (gi_priv _ _ _ _ G1), (gi_priv _ _ _ _ G2). reflexivity.
    - cbn. rewrite (gi_pub _ _ _ _ G1), (gi_pub _ _ _ _ G2). reflexivity.
    - rewrite L2. exact K1.
    - intros j Hj. destruct (SAME j Hj) as (pub & psk & _ & X & Y).
      rewrite (pi_act _ _ _ _ _ _ _ _ X), (pi_act _ _ _ _ _ _ _ _ Y), (pi_pub _ _ _ _ _ _ _ _ X), (pi_pub _ _ _ _ _ _ _ _ Y). split; reflexivity.
    - destruct (SAME k ltac:(lia)) as (pub & psk & E & X & Y). destruct (c_dh C a pub) as [ss|] eqn:ES; [|exfalso; exact (HV pub psk (nth_error_In _ _ E) ES)].
      destruct (pi_hs _ _ _ _ _ _ _ _ X ss ES) as (_ & -> & _). destruct (pi_hs _ _ _ _ _ _ _ _ Y ss ES) as (_ & -> & _). reflexivity.
    - destruct (ordered_last _ (Z.of_nat k) OR ts t HIN) as (ts0 & t0 & EL & D). pose proof (HP2 k K1) as X. rewrite EL in X. destruct X as (-> & _).
      destruct (lexgt ts ts0) eqn:E; [|reflexivity]. exfalso. destruct D as [(-> & _)|(D & _)]; [apply (greater_irrefl ts0), lexgt_greater, E|].
      apply (greater_irrefl ts). apply (greater_trans _ ts0); [apply lexgt_greater, E|exact D]. }
  unfold again, step, packet_receive. rewrite B1, B2. unfold handle_initiation. rewrite B3.
  destruct (cookie_validate C _ m (Z.to_nat INIT_MAC) ip' port' _).
  - split; [reflexivity|left; reflexivity].
  - destruct (send_reply_facts (up_rng (fst d) r', snd d) m (Z.to_nat INIT_MAC) ip' port') as (R1 & _ & R2). change (g_load (up_rng (fst d) r')) with (g_load (fst d)). destruct (g_load (fst d)); cbn [andb negb].
    + split; [exact R1|]. destruct R2 as [R2|R2]; [left; exact R2|right; split; [reflexivity|exact R2]].
    + change (g_hpc (up_rng (fst d) r')) with (g_hpc (fst d)). cbn zeta. rewrite EN. split; [reflexivity|left; reflexivity].
  - rewrite andb_false_r. change (g_hpc (up_rng (fst d) r')) with (g_hpc (fst d)). cbn zeta. rewrite EN. split; [reflexivity|left; reflexivity].
Qed.
End Hello.
Print Assumptions wg_replay_ignored.
Print Assumptions wg_initiations_advance.

(** Both hypotheses are met: B accepts A's initiation, six seconds later another
    one that A sent because it got no answer, and then sees the first again. *)
Definition opsA3 := opsA1 ++ [(OPoll 7000, [repeat 35 32; idx_block 8])].
Definition mInit2 := last_udp (trace toy opsA3).
Definition opsB3 := setupB ++ [(ORecv mInit ipA 51820, [repeat 44 32; idx_block 6]); (OPoll 8000, []); (ORecv mInit2 ipA 51820, [repeat 45 32; idx_block 7])].
Definition hellos (tr : list ev) : list (list Z * Z) := flat_map (fun e => match e with EHello _ ts t => [(ts, t)] | _ => [] end) tr.
Example advance_toy : hist_ok 0 opsB3 /\ hellos (trace toy opsB3) = [(timestamp 1000, 1000); (timestamp 7000, 8000)].
Proof. split; [apply hist_okb_ok; vm_compute; reflexivity|vm_compute; reflexivity]. Qed.
Example replay_toy : exists ra ops1 ops2, opsB3 = (OKey keyB, ra) :: ops1 ++ (ORecv mInit ipA 51820, [repeat 44 32; idx_block 6]) :: ops2 /\
  no_rekey ops1 /\ no_rekey ops2 /\ (forall pub psk, In (pub, psk) (peers_of ops1) -> c_dh toy keyB pub <> None) /\
  In (EHello 0 (timestamp 1000) 1000) (snd (step toy (fst (run toy dev_init ((OKey keyB, ra) :: ops1))) (ORecv mInit ipA 51820) [repeat 44 32; idx_block 6])).
Proof.
  exists [], (tl setupB), [(OPoll 8000, []); (ORecv mInit2 ipA 51820, [repeat 45 32; idx_block 7])]. split; [reflexivity|]. split; [repeat constructor|]. split; [repeat constructor|]. split.
  - intros pub psk H. vm_compute in H. destruct H as [E|[]]. injection E as <- _. vm_compute. discriminate.
  - vm_compute. left. reflexivity.
Qed.
