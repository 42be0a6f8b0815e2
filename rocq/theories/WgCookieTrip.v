(** C74, third part: a sender that gets a cookie and returns it is served although
    the device is under load. *)
From Verif Require Import Base ByteOrder Arp WgAllowedIps WgCounter WgDevice WgDeviceInv WgDeviceRun WgDeviceProps WgToy WgConf WgHandshake WgAgree WgHello WgLoad.

Section Cookie.
Context (C : crypto) (OK : crypto_ok C) (ck : list Z) (T : Z).

(** A peer that keeps cookie [ck], got at [T], and what it then sends. *)
Definition hasck (p : peer) : Prop := c_valid (p_cookie p) = true /\ c_cookie (p_cookie p) = ck /\ c_birth (p_cookie p) = T.
Definition returns (m : list Z) : Prop := exists body mac1, m = body ++ mac1 ++ c_hmac C ck (body ++ mac1) /\ length body = 182%nat /\ length mac1 = 32%nat.
Definition tagged (i : Z) (e : ev) : Prop := match e with EInit j t m => j = i -> u64 (t - T) <= COOKIE_AGE_MS -> returns m | _ => True end.
Definition qact (i : Z) (f : act) : Prop := forall g p, zlen (g_pub g) = 65 -> hasck p ->
  hasck (snd (fst (f g p))) /\ Forall (tagged i) (snd (f g p)) /\ g_pub (fst (fst (f g p))) = g_pub g.
Ltac tg := repeat (constructor; [exact I|]); constructor.
Ltac st H := split; [exact H|split; [tg|reflexivity]].
Lemma q_seq i f h : qact i f -> qact i h -> qact i (seq f h).
Proof.
  intros F H g p G K. unfold seq. destruct (F g p G K) as (F1 & F2 & F3). destruct (f g p) as [[g1 p1] e1]. cbn [fst snd] in *. destruct (H g1 p1 ltac:(congruence) F1) as (H1 & H2 & H3).
  destruct (h g1 p1) as [[g2 p2] e2]. cbn [fst snd] in *. split; [exact H1|]. split; [apply Forall_app; split; assumption|congruence].
Qed.
Lemma q_skip i : qact i skip. Proof. intros g p G K. st K. Qed.
Lemma q_stage p pkt : hasck p -> hasck (stage p pkt).
Proof. unfold stage. destruct (_ <=? _); auto. Qed.
Lemma q_initiate i : qact i (initiate C i).
Proof.
  intros g p G K. unfold initiate. destruct (create_initiation C g (p_hs p)) as [[g1 h1] [m|]] eqn:E; pose proof (create_initiation_same _ _ _ _ _ _ E) as (E1 & _ & E3 & _).
  - destruct (initiation_spec C OK _ _ _ _ _ E G) as (epub & dh & ck2 & key & es & ck3 & key2 & et & _ & _ & _ & _ & _ & _ & _ & _ & _ & _ & _ & _ & _ & EB & L1 & L2 & L3).
    unfold add_macs. cbn [fst snd]. destruct K as (K1 & K2 & K3). split; [repeat split; assumption|]. split; [|exact E3]. constructor; [|tg]. cbn [tagged]. intros _ HT. rewrite K1, K3. cbn [andb].
    assert (E5 : (u64 (g_now g1 - T) <=? COOKIE_AGE_MS) = true) by lia. rewrite E5, K2. exists m, (c_hmac C (c_mac1key (p_cookie p)) m). split; [reflexivity|]. split.
    + rewrite EB, !app_length, L1, L2, L3. reflexivity.
    + pose proof (co_mac C OK (c_mac1key (p_cookie p)) m). unfold zlen in *. lia.
  - split; [exact K|]. split; [tg|exact E3].
Qed.
Lemma q_reset i : qact i (reset_handshake C). Proof. intros g p G K. st K. Qed.
Lemma q_send_init i : qact i (send_initiation C i). Proof. apply q_seq; [apply q_reset|apply q_initiate]. Qed.
Lemma q_packet i pkt : qact i (packet_send C i pkt).
Proof.
  intros g p G K. unfold packet_send. set (N := let p1 := stage p pkt in if hs_eqb (h_state (p_hs p1)) Zeroed then initiate C i g p1 else (g, p1, [])).
  assert (NS : hasck (snd (fst N)) /\ Forall (tagged i) (snd N) /\ g_pub (fst (fst N)) = g_pub g).
  { unfold N. cbn zeta. pose proof (q_stage p pkt K) as K1. destruct (hs_eqb _ _); [apply (q_initiate i g _ G K1)|st K1]. }
  clearbody N. destruct (s_cur (p_kps p)) as [s|]; [|exact NS]. destruct (negb _); [exact NS|]. cbn zeta. clear NS N.
  destruct (_ || _). { split; [|split; [tg|reflexivity]]. apply q_stage. exact K. }
  destruct (_ <? _); [st K|]. destruct (c_enc C _ _ _ _) as [ct|]; [|st K]. set (p2 := up_tsent _ _ _). assert (K2 : hasck p2) by exact K. clearbody p2. destruct (_ && _); [|st K2].
  destruct (q_initiate i g p2 G K2) as (X & Y & Z). destruct (initiate C i g p2) as [[g3 p3] e3]. cbn [fst snd] in *. split; [exact X|]. split; [|exact Z]. repeat (constructor; [exact I|]). exact Y.
Qed.
Lemma q_loop i n : forall j, qact i (staged_loop C i n j).
Proof. induction n as [|n IH]; intros j g p G K; cbn [staged_loop]; [st K|]. apply (q_seq _ _ _ (q_packet i (nth j (p_arr p) [])) (IH (S j)) g (up_stg p (lset (p_arr p) j []) (p_cnt p)) G K). Qed.
Lemma q_staged i : qact i (send_staged C i).
Proof. intros g p G K. unfold send_staged. apply (q_loop i (Z.to_nat (p_cnt p)) 0 g (up_stg p (p_arr p) 0) G K). Qed.
Lemma q_keep i : qact i (keepalive C i).
Proof.
  intros g p G K. unfold keepalive. destruct (s_cur (p_kps p)) as [s|]; [|st K]. cbn zeta. destruct (negb _); [st K|]. destruct (_ <=? _); [st K|]. destruct (_ <=? _); [st K|].
  destruct (c_enc C _ _ _ _); st K.
Qed.
Lemma q_first i : qact i (first_keepalive C i).
Proof. intros g p G K. unfold first_keepalive. destruct (s_cur (p_kps p)) as [s|]; [|st K]. destruct (_ =? _); [apply (q_keep i g p G K)|st K]. Qed.
Lemma q_finish i x : qact i x -> qact i (finish C i x).
Proof.
  intros X g p G K. unfold finish. destruct (begin_session C i g p) as [[p1 e1]|] eqn:E; [|st K]. unfold begin_session in E. destruct (_ && _); [discriminate|]. destruct (kdf2 C _ _) as [t1 t2].
  injection E as <- <-. set (p2 := up_tdone _ _). assert (K2 : hasck p2) by exact K. clearbody p2. destruct (q_seq i _ _ (q_staged i) X g p2 G K2) as (Y1 & Y2 & Y3). destruct (seq (send_staged C i) x g p2) as [[g2 p3] e2]. cbn [fst snd] in *.
  split; [exact Y1|]. split; [constructor; [exact I|exact Y2]|exact Y3].
Qed.
Lemma q_answer i ip port : qact i (answer C i ip port).
Proof.
  intros g p G K. unfold answer. set (p0 := up_ep p ip port). assert (K0 : hasck p0) by exact K. clearbody p0. destruct (create_response C g (p_hs p0)) as [[g1 h1] m] eqn:E. apply create_response_same in E. destruct E as (_ & _ & E3 & _).
  destruct m as [m|]; [|split; [exact K0|]; split; [tg|exact E3]]. unfold add_macs. set (p2 := up_cookie _ _). assert (K2 : hasck p2) by exact K0. clearbody p2.
  destruct (q_finish i skip (q_skip i) g1 p2 ltac:(congruence) K2) as (Y1 & Y2 & Y3). destruct (finish C i skip g1 p2) as [[g2 p3] e2]. cbn [fst snd] in *. split; [exact Y1|]. split; [constructor; [exact I|exact Y2]|congruence].
Qed.
Lemma q_ka i : qact i (fun g p => let '(g1, p1, e) := keepalive C i g p in (g1, up_tka p1 (g_now g), e)).
Proof. intros g p G K. destruct (q_keep i g p G K) as (X & Y). destruct (keepalive C i g p) as [[g1 p1] e]. split; [exact X|exact Y]. Qed.
Lemma q_jitter i : qact i jitter. Proof. intros g p G K. unfold jitter. destruct (g_rng g); st K. Qed.
Lemma q_js i : qact i (seq jitter (send_initiation C i)). Proof. apply q_seq; [apply q_jitter|apply q_send_init]. Qed.
Lemma q_tick i : qact i (tick C i).
Proof.
  assert (T1 : qact i (tm_retransmit C i)).
  { intros g p G K. unfold tm_retransmit. destruct (_ || _); [st K|]. destruct (_ <=? _); [|destruct (_ <=? _); [apply (q_send_init i g p G K)|st K]]. st K. }
  assert (T2 : qact i (tm_passive C i)).
  { intros g p G K. unfold tm_passive. destruct (s_cur _); [|st K]. destruct (negb _); [st K|]. destruct (_ || _); [st K|]. destruct (_ && _); [st K|]. destruct (_ && _); [st K|]. apply (q_ka i g p G K). }
  assert (T3 : qact i (tm_rekey C i)).
  { intros g p G K. unfold tm_rekey. destruct (s_cur _); [|st K]. cbn zeta. destruct (_ || _); [st K|]. destruct (_ <? _); [st K|]. apply (q_js i g p G K). }
  assert (T4 : qact i (tm_stale C i)).
  { intros g p G K. unfold tm_stale. destruct (s_cur _); [|st K]. destruct (_ || _); [st K|]. destruct (_ && _); [st K|]. destruct (_ && _); [st K|]. apply (q_js i g p G K). }
  assert (T5 : qact i (tm_zero C)).
  { intros g p G K. unfold tm_zero. destruct (s_cur _); [|st K]. destruct (_ <? _); st K. }
  assert (T6 : qact i (tm_persistent C i)).
  { intros g p G K. unfold tm_persistent. destruct (_ =? _); [st K|]. destruct (s_cur _); [|st K]. destruct (negb _); [st K|]. destruct (_ && _); [st K|]. apply (q_ka i g p G K). }
  intros g p G K. unfold tick. destruct (negb _); [st K|]. apply (q_seq _ _ _ T1 (q_seq _ _ _ T2 (q_seq _ _ _ T3 (q_seq _ _ _ T4 (q_seq _ _ _ T5 T6)))) g p G K).
Qed.

(** *** The device *)
Lemma tagged_other i j e : of_peer j e -> i <> j -> Forall (tagged i) e.
Proof. intros F N. eapply Forall_impl; [|exact F]. intros x Hx. destruct x; try exact I. cbn in *. intros ->. congruence. Qed.
Definition QI (i : nat) (d : dev) : Prop := hasck (nth i (snd d) peer_zero).
Section Dev.
Context (a A : list Z) (LA : zlen A = 65) (l : list (list Z * list Z)).
Lemma q_on_peer d i j f tr : (i < 8)%nat -> (j < 8)%nat -> (j = i -> qact (Z.of_nat i) f) -> cact C a A (Z.of_nat j) f -> nth_error l j <> None -> CI C a A l d tr -> QI i d ->
  QI i (fst (on_peer d j f)) /\ Forall (tagged (Z.of_nat i)) (snd (on_peer d j f)).
Proof.
  intros Hi Hj Q F HL (L & G & P) H. unfold on_peer. pose proof (P j Hj) as Pj. destruct (nth_error l j) as [[pub psk]|] eqn:EL; [|congruence].
  specialize (F pub psk (fst d) _ _ _ G Pj). unfold QI in *. destruct (Nat.eq_dec j i) as [EQ|NE].
  - subst j. specialize (Q eq_refl (fst d) (nth i (snd d) peer_zero) ltac:(rewrite (gi_pub _ _ _ _ G); exact LA) H). destruct (f _ _) as [[g1 p1] e]. cbn [fst snd] in *. rewrite nth_lset_eq by lia. split; apply Q.
  - destruct (f _ _) as [[g1 p1] e]. destruct F as (_ & _ & E1). cbn [fst snd]. rewrite nth_lset_ne by congruence. split; [exact H|]. apply (tagged_other _ (Z.of_nat j)); [exact E1|lia].
Qed.
Lemma q_tick_all n i : (i < 8)%nat -> forall d j tr, (j + n <= 8)%nat -> CI C a A l d tr -> QI i d ->
  QI i (fst (tick_all C d n j)) /\ Forall (tagged (Z.of_nat i)) (snd (tick_all C d n j)).
Proof.
  intros Hi. induction n as [|n IH]; intros d j tr Hj HC H; cbn [tick_all]; [split; [exact H|constructor]|].
  assert (H1 : CI C a A l (fst (on_peer d j (tick C (Z.of_nat j)))) (tr ++ snd (on_peer d j (tick C (Z.of_nat j)))) /\
     QI i (fst (on_peer d j (tick C (Z.of_nat j)))) /\ Forall (tagged (Z.of_nat i)) (snd (on_peer d j (tick C (Z.of_nat j))))).
  { destruct (nth_error l j) as [x|] eqn:EL.
    - split; [apply CI_on_peer; [lia|congruence|apply c_tick|exact HC]|]. apply (q_on_peer d i j _ tr); [exact Hi|lia|intros ->; apply q_tick|apply c_tick|congruence|exact HC|exact H].
    - destruct HC as (L & G & P). pose proof (P j ltac:(lia)) as Pi. rewrite EL in Pi. destruct Pi as (Pi & _). unfold on_peer, tick. rewrite Pi. cbn [negb fst snd]. rewrite app_nil_r. split.
      + split; [cbn [snd]; rewrite lset_length; exact L|]. split; [exact G|]. intros k Hk. cbn [snd]. destruct (Nat.eq_dec k j) as [->|NJ]; [rewrite nth_lset_eq by lia; apply P, Hk|]. rewrite nth_lset_ne by exact NJ. apply P, Hk.
      + split; [|constructor]. unfold QI in *. cbn [snd]. destruct (Nat.eq_dec i j) as [->|NJ]; [rewrite nth_lset_eq by lia; exact H|]. rewrite nth_lset_ne by exact NJ. exact H. }
  destruct H1 as (H1 & H2 & H3). destruct (on_peer d j _) as [d1 e1]. cbn [fst snd] in *. specialize (IH d1 (S j) _ ltac:(lia) H1 H2). destruct (tick_all C d1 n (S j)) as [d2 e2]. cbn [fst snd] in *.
  split; [apply IH|]. apply Forall_app. split; [exact H3|apply IH].
Qed.
Definition no_cookie (o : op) : Prop := match o with ORecv b _ _ => rdle32 b <> 3 | _ => True end.
Lemma q_step d i o r tr : (i < 8)%nat -> CI C a A l d tr -> QI i d -> p_active (nth i (snd d) peer_zero) = true -> opkey o -> no_cookie o ->
  QI i (fst (step C d o r)) /\ Forall (tagged (Z.of_nat i)) (snd (step C d o r)).
Proof.
  intros Hi HC0 H NA NK NC. unfold step. set (d0 := (up_rng (fst d) r, snd d)).
  assert (HC : CI C a A l d0 tr) by (destruct HC0 as (L & G & P); split; [exact L|]; split; [apply GI_rng, G|exact P]).
  assert (H0 : QI i d0) by exact H. assert (NA0 : p_active (nth i (snd d0) peer_zero) = true) by exact NA. clearbody d0. clear HC0 H d NA.
  destruct o as [priv|pub psk ip port ka|k ip cidr|pkt|now|b ip port]; [destruct NK|..].
  - cbn [fst snd]. split; [|constructor]. unfold add_peer. destruct (find_free (snd d0) 0) as [j|] eqn:E; [|exact H0]. apply find_free_spec in E. rewrite Nat.sub_0_r in E. destruct E as (E1 & E2 & E3).
    unfold QI in *. cbn [snd]. rewrite nth_lset_ne; [exact H0|]. intros ->. congruence.
  - cbn [fst snd]. split; [|constructor]. unfold add_allowed. destruct (_ || _); [exact H0|]. destruct (negb _); exact H0.
  - unfold output. destruct (wolfguard_output _ _ pkt) as [k|] eqn:EO; [|split; [exact H0|constructor]].
    assert (EA : p_active (nth (Z.to_nat k) (snd d0) peer_zero) = true).
    { unfold wolfguard_output in EO. destruct (zlen pkt <? 20); [discriminate|]. destruct (negb _); [discriminate|]. cbn zeta in EO.
      destruct (_ || _); [discriminate|]. destruct (p_active (nth (Z.to_nat (aips_lookup (g_aips (fst d0)) (load_le32 (skipn 16 pkt)))) (snd d0) peer_zero)) eqn:EA; cbn [negb] in EO; [|discriminate]. congruence. }
    apply output_bound in EO.
    destruct (q_on_peer d0 i (Z.to_nat k) (packet_send C k pkt) tr Hi ltac:(lia) ltac:(intros <-; rewrite Z2Nat.id by lia; apply q_packet) ltac:(rewrite Z2Nat.id by lia; apply c_packet) (CI_active C a A l d0 tr (Z.to_nat k) HC ltac:(lia) EA) HC H0) as (X & Y).
    destruct (on_peer _ _ _) as [d' e]. cbn [fst snd] in *. split; [exact X|constructor; [exact I|exact Y]].
  - unfold poll. apply (q_tick_all 8 i Hi _ 0%nat tr ltac:(lia)); [|exact H0]. destruct d0 as [g ps]. eapply CI_g; [|exact HC]. destruct HC as (_ & [] & _). constructor; assumption.
  - unfold packet_receive. assert (HN : QI i d0 /\ Forall (tagged (Z.of_nat i)) []) by (split; [exact H0|constructor]). destruct (zlen b <? 4); [exact HN|]. cbn zeta. destruct d0 as [g ps].
    pose proof HC as (L & G & P). cbn [fst snd] in L, G, P, NA0.
    assert (H1 : CI C a A l (up_hpc g (u16 (g_hpc g + 1)), ps) (tr ++ [])) by (rewrite app_nil_r; eapply CI_g; [apply GI_hpc, G|exact HC]).
    assert (HR : forall off, QI i (fst (send_reply C (g, ps) b off ip port)) /\ Forall (tagged (Z.of_nat i)) (snd (send_reply C (g, ps) b off ip port))).
    { intros off. destruct (send_reply_facts C (g, ps) b off ip port) as (R1 & _). destruct (reply_chk C (g, ps) b off ip port) as (_ & _ & _ & _ & R). unfold QI in *. rewrite R1. split; [exact H0|]. destruct R as [-> |(nc & box & -> & _)]; [constructor|]. repeat constructor. }
    destruct (_ =? 1); [|destruct (_ =? 2); [|destruct (Z.eqb_spec (rdle32 b) 3); [contradiction|destruct (_ =? 4); [|exact HN]]]].
    + unfold handle_initiation. destruct (zlen b <? INIT_LEN); [exact HN|].
      assert (QQ : forall st, let res := (if g_load g && negb (match st with MacCookie => true | _ => false end)
        then send_reply C (g, ps) b (Z.to_nat INIT_MAC) ip port else let g1 := up_hpc g (u16 (g_hpc g + 1)) in
        match consume_initiation C g1 ps b with None => ((g1, ps), []) | Some (i, p, ts) =>
          let (d', e) := on_peer (g1, lset ps i p) i (answer C (Z.of_nat i) ip port) in (d', EHello (Z.of_nat i) ts (g_now g) :: e) end) in QI i (fst res) /\ Forall (tagged (Z.of_nat i)) (snd res)).
      { intros st. cbn zeta. match goal with |- context [if ?x then send_reply _ _ _ _ _ _ else _] => destruct x end; [apply HR|].
        set (g1 := up_hpc _ _) in *. assert (GG : GI C a A g1) by (apply GI_hpc, G). clearbody g1. destruct (consume_initiation C g1 ps b) as [[[k p] ts]|] eqn:EC; [|exact HN].
        assert (X : (k < 8)%nat /\ p_active (nth k ps peer_zero) = true /\ p_cookie p = p_cookie (nth k ps peer_zero) /\ exists h', p = up_hello (up_hs (nth k ps peer_zero) h') ts (g_now g1) /\ h_state h' = ConsumedInit /\
          h_rstatic h' = h_rstatic (p_hs (nth k ps peer_zero)) /\ h_ss h' = h_ss (p_hs (nth k ps peer_zero)) /\ h_psk h' = h_psk (p_hs (nth k ps peer_zero))).
        { revert EC. unfold consume_initiation. destruct (c_dh C _ _); [|discriminate]. destruct (kdf2 C _ _) as [ck2 key]. destruct (c_dec C _ _ _ _) as [sp|]; [|discriminate]. cbn zeta.
          destruct (find_pub ps sp 0) as [k'|] eqn:EP; [|discriminate]. apply find_pub_active in EP. rewrite Nat.sub_0_r in EP. destruct (_ && _); [discriminate|]. destruct (kdf2 C ck2 _) as [ck3 key2].
          destruct (c_dec C _ _ _ _) as [ts'|]; [|discriminate]. destruct (negb _); [discriminate|]. intros [= <- <- <-]. split; [lia|]. split; [apply EP|]. split; [reflexivity|]. eexists. split; [reflexivity|]. repeat split. }
        destruct X as (X1 & X2 & X3 & h' & X4 & X5 & X6 & X7 & X8).
        assert (HL : nth_error l k <> None) by (apply (CI_active C a A l (g, ps) tr); assumption).
        assert (H2 : CI C a A l (g1, lset ps k p) (tr ++ [EHello (Z.of_nat k) ts (g_now g1)])).
        { subst p. apply (CI_set C a A l (g, ps) k _ g1 [EHello (Z.of_nat k) ts (g_now g1)] tr X1 GG); [|  |exact HL|exact HC].
          - intros pub psk li lh _ Pk. cbn [snd] in Pk. cbn [fold_left upI upH]. rewrite Z.eqb_refl.
            assert (Pk' : PI C a A pub psk (up_hs (nth k ps peer_zero) h') li lh) by (apply PI_static; [exact X6|exact X7|exact X8|congruence|exact Pk]).
            destruct Pk'. constructor; cbn [up_hello up_hs p_active p_pub p_cookie p_hs p_ts p_lastinit] in *; try assumption. split; reflexivity.
          - intros j NJ li lh. cbn [fold_left upI upH]. destruct (Z.eqb_spec (Z.of_nat k) (Z.of_nat j)); [lia|]. split; reflexivity. }
        assert (H3 : QI i (g1, lset ps k p)).
        { unfold QI in *. cbn [snd] in *. destruct (Nat.eq_dec i k) as [->|NE]; [rewrite nth_lset_eq by lia; unfold hasck; rewrite X3; exact H0|rewrite nth_lset_ne by exact NE; exact H0]. }
        destruct (q_on_peer _ i k (answer C (Z.of_nat k) ip port) _ Hi X1 ltac:(intros <-; apply q_answer) ltac:(apply c_answer) HL H2 H3) as (Y1 & Y2). destruct (on_peer _ _ _) as [d' e]. cbn [fst snd] in *. split; [exact Y1|constructor; [exact I|exact Y2]]. }
      destruct (cookie_validate C (g_chk g) b (Z.to_nat INIT_MAC) ip port (g_now g)); [exact HN|exact (QQ MacValid)|exact (QQ MacCookie)].
    + unfold handle_response. destruct (zlen b <? RESP_LEN); [exact HN|].
      assert (QQ : forall st, let res := (if g_load g && negb (match st with MacCookie => true | _ => false end)
        then send_reply C (g, ps) b (Z.to_nat RESP_MAC) ip port else let g1 := up_hpc g (u16 (g_hpc g + 1)) in
        match find_wait ps (mr_receiver b) 0 with None => ((g1, ps), []) | Some i => let p := nth i ps peer_zero in
          match consume_response C g1 (p_hs p) b with None => ((g1, ps), []) | Some h1 =>
             on_peer (g1, lset ps i (up_ep (up_hs p h1) ip port)) i (finish C (Z.of_nat i) (first_keepalive C (Z.of_nat i))) end end) in QI i (fst res) /\ Forall (tagged (Z.of_nat i)) (snd res)).
      { intros st. cbn zeta. match goal with |- context [if ?x then send_reply _ _ _ _ _ _ else _] => destruct x end; [apply HR|].
        destruct (find_wait ps (mr_receiver b) 0) as [k|] eqn:EF; [|exact HN]. pose proof (find_wait_active _ _ _ _ EF) as (FA & _). apply find_wait_bound in EF. rewrite Nat.sub_0_r in FA.
        set (g1 := up_hpc _ _) in *. destruct (consume_response C g1 (p_hs (nth k ps peer_zero)) b) as [h1|] eqn:EC; [|exact HN].
        assert (X : h_state h1 = ConsumedResp /\ h_rstatic h1 = h_rstatic (p_hs (nth k ps peer_zero)) /\ h_ss h1 = h_ss (p_hs (nth k ps peer_zero)) /\ h_psk h1 = h_psk (p_hs (nth k ps peer_zero))).
        { revert EC. unfold consume_response. destruct (negb _); [discriminate|]. cbn zeta. destruct (c_dh _ _ _); [|discriminate]. destruct (c_dh _ _ _); [|discriminate].
          destruct (kdf3 C _ _) as [[? ?] ?]. destruct (c_dec _ _ _ _ _); [|discriminate]. intros EC. injection EC as <-. repeat split. }
        destruct X as (X4 & X5 & X6 & X7).
        assert (HL : nth_error l k <> None) by (apply (CI_active C a A l (g, ps) tr); [exact HC|lia|exact FA]).
        assert (H2 : CI C a A l (g1, lset ps k (up_ep (up_hs (nth k ps peer_zero) h1) ip port)) (tr ++ [])).
        { apply (CI_set C a A l (g, ps) k _ g1 [] tr); [lia|apply GI_hpc, G| | |exact HL|exact HC].
          - intros pub psk li lh _ Pk. cbn [snd fold_left] in *. apply (PI_light C a A pub psk (up_hs (nth k ps peer_zero) h1)); [repeat split|]. apply PI_static; [exact X5|exact X6|exact X7|congruence|exact Pk].
          - intros. split; reflexivity. }
        apply (q_on_peer _ i k _ (tr ++ []) Hi ltac:(lia) ltac:(intros <-; apply q_finish, q_first) ltac:(apply c_finish, c_first) HL H2).
        unfold QI in *. cbn [snd] in *. destruct (Nat.eq_dec i k) as [->|NE]; [rewrite nth_lset_eq by lia; exact H0|rewrite nth_lset_ne by exact NE; exact H0]. }
      destruct (cookie_validate C (g_chk g) b (Z.to_nat RESP_MAC) ip port (g_now g)); [exact HN|exact (QQ MacValid)|exact (QQ MacCookie)].
    + unfold handle_data. destruct (zlen b <? 32); [exact HN|]. cbn zeta. destruct (find_idx ps _ 0) as [[k s]|] eqn:EF; [|exact HN].
      apply find_idx_spec in EF. rewrite Nat.sub_0_r in EF. destruct (negb _); [exact HN|]. destruct (_ <=? _); [exact HN|]. destruct (_ <? _); [exact HN|]. destruct (c_dec _ _ _ _ _) as [pt|]; [|exact HN].
      assert (XX : forall p' e, p_cookie p' = p_cookie (nth k ps peer_zero) -> Forall (tagged (Z.of_nat i)) e -> QI i (g, lset ps k p') /\ Forall (tagged (Z.of_nat i)) e).
      { intros p' e E F. split; [|exact F]. unfold QI in *. cbn [snd] in *. destruct (Nat.eq_dec i k) as [->|NE]; [rewrite nth_lset_eq by lia; unfold hasck; rewrite E; exact H0|rewrite nth_lset_ne by exact NE; exact H0]. }
      destruct (wg_counter_validate _ _) as [rx ok]. destruct ok; cbn [negb]; apply XX; try reflexivity; [|constructor]. destruct (wg_inject _ _ _); repeat constructor.
Qed.
End Dev.
Lemma q_run a A (LA : zlen A = 65) i ops : forall l d tr, (i < 8)%nat -> nth_error l i <> None -> CI C a A l d tr -> QI i d -> no_rekey ops -> Forall (fun o => no_cookie (fst o)) ops ->
  Forall (tagged (Z.of_nat i)) (snd (run C d ops)).
Proof.
  induction ops as [|(o, r) ops IH]; intros l d tr Hi HL HC H NK NC; cbn [run]; [constructor|]. inversion NK as [|? ? N1 N2]; subst. inversion NC as [|? ? M1 M2]; subst. cbn [fst] in *.
  assert (AC : p_active (nth i (snd d) peer_zero) = true).
  { destruct HC as (_ & _ & P). specialize (P i Hi). destruct (nth_error l i) as [[pub psk]|]; [apply (pi_act _ _ _ _ _ _ _ _ P)|congruence]. }
  destruct (q_step a A LA l d i o r tr Hi HC H AC N1 M1) as (H1 & H2). pose proof (CI_step C a A l d o r tr HC N1) as X.
  destruct (step C d o r) as [d1 e1]. cbn [fst snd] in *.
  specialize (IH (l ++ peers_of [(o, r)]) d1 _ Hi ltac:(rewrite nth_error_app1; [exact HL|apply nth_error_Some; exact HL]) X H1 N2 M2). destruct (run C d1 ops) as [d2 e2]. cbn [fst snd] in *. apply Forall_app. split; assumption.
Qed.
End Cookie.

Section Trip.
Context (C : crypto) (OK : crypto_ok C).

Lemma sent_parts A mk h t m : zlen A = 65 -> sent_init C A mk h t m ->
  rdle32 m = 1 /\ zlen m = 246 /\ mi_sender m = h_lidx h /\ exists body mac2, m = body ++ c_hmac C mk body ++ mac2 /\ length body = 182%nat /\ length mac2 = 32%nat.
Proof.
  intros LA (g0 & h0 & g1 & body & mac2 & E1 & E2 & E3 & E4 & E5).
  destruct (initiation_spec C OK _ _ _ _ _ E3 ltac:(rewrite E1; exact LA)) as (epub & dh & ck2 & key & es & ck3 & key2 & et & _ & _ & _ & _ & _ & _ & _ & _ & _ & I1 & _ & _ & _ & EB & L1 & L2 & L3).
  destruct (init_fields (h_lidx h) epub es et (c_hmac C mk body ++ mac2) ltac:(lia) L1 L2 L3) as (F1 & F2 & _ & _ & _ & F6). rewrite <- EB, <- E4 in F1, F2. rewrite <- EB in F6. apply (mac2_len C OK) in E5.
  split; [exact F1|]. split; [rewrite E4; unfold zlen; rewrite !app_length, F6, E5; pose proof (co_mac C OK mk body); unfold zlen in *; lia|]. split; [exact F2|].
  exists body, mac2. split; [exact E4|]. split; assumption.
Qed.

(** *** The cookie B sends *)
(** The random bytes B needs for a cookie: a nonce, before it a new secret if the
    old one is older than two minutes. *)
Definition reply_random (d : dev) (r : list (list Z)) : Prop := exists n, length n = 16%nat /\
  ((u64 (g_now (fst d) - x_birth (g_chk (fst d))) <= 120000 /\ exists r', r = n :: r') \/
   (120000 < u64 (g_now (fst d) - x_birth (g_chk (fst d))) /\ exists s r', r = s :: n :: r')).
Lemma reply_made d m ip port r : reply_random d r -> exists d' n box, send_reply C (up_rng (fst d) r, snd d) m 182 ip port = (d', [EUdp ip port (le32 3 ++ slice m 4 4 ++ n ++ box)]) /\
  length n = 16%nat /\ zlen box = 48 /\ c_xdec C (x_enckey (g_chk (fst d))) n box (slice m 182 32) = Some (cookie_for C (x_secret (g_chk (fst d'))) ip port) /\ g_now (fst d') = g_now (fst d) /\
  u64 (g_now (fst d') - x_birth (g_chk (fst d'))) <= 120000.
Proof.
  intros (n & LN & H). unfold send_reply, create_reply. cbn [fst snd up_rng g_now g_chk g_rng]. unfold COOKIE_AGE_MS.
  destruct H as [(H & r' & ->)|(H & s & r' & ->)].
  - assert (E : (120000 <? u64 (g_now (fst d) - x_birth (g_chk (fst d)))) = false) by lia. rewrite E. cbn [negb].
    destruct (co_xenc C OK (x_enckey (g_chk (fst d))) n (cookie_for C (x_secret (g_chk (fst d))) ip port) (slice m 182 32)) as (box & B1 & B2 & B3). cbn [up_rng g_rng g_chk]. rewrite cookie_src in B1. rewrite B1. eexists _, n, box. split; [reflexivity|]. split; [exact LN|].
    split; [rewrite B2; rewrite cookie_src; rewrite (co_mac C OK); reflexivity|]. split; [exact B3|]. split; [reflexivity|exact H].
  - assert (E : (120000 <? u64 (g_now (fst d) - x_birth (g_chk (fst d)))) = true) by lia. rewrite E. cbn [negb up_chk up_rng g_rng g_chk x_secret x_enckey].
    destruct (co_xenc C OK (x_enckey (g_chk (fst d))) n (cookie_for C s ip port) (slice m 182 32)) as (box & B1 & B2 & B3). rewrite cookie_src in B1. rewrite B1. eexists _, n, box. split; [reflexivity|]. split; [exact LN|].
    split; [rewrite B2; rewrite cookie_src; rewrite (co_mac C OK); reflexivity|]. split; [exact B3|]. split; [reflexivity|]. cbn. rewrite Z.sub_diag. cbn. lia.
Qed.

(** *** A takes it *)
(** Peer [k] of [d] is owed a cookie for its last handshake message, of index [x]. *)
Definition awaits_cookie (d : dev) (k : nat) (x : Z) : Prop :=
  let p := nth k (snd d) peer_zero in p_active p = true /\ c_sent1 (p_cookie p) = true /\ h_lidx (p_hs p) = x.
Lemma find_mac1_first ps x : forall i j, (j < length ps)%nat -> p_active (nth j ps peer_zero) = true -> c_sent1 (p_cookie (nth j ps peer_zero)) = true -> h_lidx (p_hs (nth j ps peer_zero)) = x ->
  (forall k, (k < j)%nat -> ~ (p_active (nth k ps peer_zero) = true /\ c_sent1 (p_cookie (nth k ps peer_zero)) = true /\ h_lidx (p_hs (nth k ps peer_zero)) = x)) -> find_mac1 ps x i = Some (i + j)%nat.
Proof.
  induction ps as [|p ps IH]; intros i j L H1 H2 H3 H4; [cbn in L; lia|]. cbn [find_mac1]. destruct j as [|j].
  - cbn [nth] in H1, H2, H3. rewrite H1, H2, H3, Z.eqb_refl. cbn. f_equal. lia.
  - assert (E : p_active p && c_sent1 (p_cookie p) && (h_lidx (p_hs p) =? x) = false).
    { destruct (p_active p && c_sent1 (p_cookie p) && (h_lidx (p_hs p) =? x)) eqn:E; [|reflexivity]. exfalso. apply (H4 0%nat (Nat.lt_0_succ j)). cbn [nth].
      apply andb_true_iff in E. destruct E as (E & E3). apply andb_true_iff in E. destruct E as (E1 & E2). split; [exact E1|]. split; [exact E2|apply Z.eqb_eq, E3]. }
    rewrite E, (IH (S i) j); [f_equal; lia|cbn in L; lia|exact H1|exact H2|exact H3|]. intros k Hk. apply (H4 (S k)). lia.
Qed.
Lemma cookie_taken d i n box x4 ck ip port r : (i < length (snd d))%nat -> length x4 = 4%nat -> length n = 16%nat -> zlen box = 48 ->
  (forall k, (k < length (snd d))%nat -> awaits_cookie d k (rdle32 x4) <-> k = i) ->
  c_xdec C (c_deckey (p_cookie (nth i (snd d) peer_zero))) n box (c_last1 (p_cookie (nth i (snd d) peer_zero))) = Some ck ->
  exists d', step C d (ORecv (le32 3 ++ x4 ++ n ++ box) ip port) r = (d', []) /\ QI ck (g_now (fst d)) i d'.
Proof.
  intros LI L4 LN LB AW XD. set (b := le32 3 ++ x4 ++ n ++ box). assert (LZ : zlen b = 72) by (unfold b, zlen in *; rewrite !app_length, L4, LN; change (length (le32 3)) with 4%nat; lia).
  destruct (proj2 (AW i LI) eq_refl) as (W1 & W2 & W3).
  assert (FM : find_mac1 (snd d) (rdle32 (slice b 4 4)) 0 = Some i).
  { unfold b. rewrite (slice_mid (le32 3) x4) by (reflexivity || exact L4). apply (find_mac1_first (snd d) _ 0 i LI W1 W2 W3). intros k Hk (Y1 & Y2 & Y3). assert (k = i); [|lia]. apply (AW k); [lia|]. repeat split; assumption. }
  assert (S8 : slice b 8 16 = n) by (unfold b; rewrite (app_assoc (le32 3)); apply slice_mid; [rewrite app_length, L4; reflexivity|exact LN]).
  assert (S24 : slice b 24 48 = box).
  { assert (EB : b = (le32 3 ++ x4 ++ n) ++ box ++ []) by (unfold b; rewrite app_nil_r, <- !app_assoc; reflexivity). rewrite EB. apply slice_mid; [rewrite !app_length, L4, LN; reflexivity|unfold zlen in LB; lia]. }
  assert (T3 : rdle32 b = 3) by (apply rdle32_le32; lia).
  unfold step, packet_receive. assert (Z4 : (zlen b <? 4) = false) by lia. rewrite Z4, T3. change (3 =? 1) with false. change (3 =? 2) with false. change (3 =? 3) with true. cbn match.
  unfold handle_cookie. assert (Z5 : (zlen b <? 72) = false) by lia. rewrite Z5, FM. eexists. split; [reflexivity|]. unfold QI. cbn [snd fst]. rewrite nth_lset_eq by exact LI. cbn [up_cookie p_cookie]. unfold consume_reply. rewrite W2. cbn [negb].
  rewrite S8, S24, XD. repeat split.
Qed.

(** *** B remembers *)
Lemma hist_tail l : forall d b, dev_wf d -> hist_ok (g_now (fst d)) (l ++ b) -> dev_wf (fst (run C d l)) /\ hist_ok (g_now (fst (fst (run C d l)))) b.
Proof.
  induction l as [|(o, r) l IH]; intros d b W HO; cbn [run]; [split; assumption|]. cbn [app hist_ok] in HO. destruct HO as (H1 & H2). destruct (step_ok C d o r W H1) as ((W1 & _) & E). destruct (step C d o r) as [d1 e1]. cbn [fst snd] in *. rewrite <- E in H2.
  specialize (IH d1 b W1 H2). destruct (run C d1 l) as [d2 e2]. exact IH.
Qed.
Lemma now_mono l : forall d, dev_wf d -> hist_ok (g_now (fst d)) l -> g_now (fst d) <= g_now (fst (fst (run C d l))).
Proof.
  induction l as [|(o, r) l IH]; intros d W HO; cbn [run]; [cbn; lia|]. destruct HO as (H1 & H2). destruct (step_ok C d o r W H1) as ((W1 & _) & E). destruct (step C d o r) as [d1 e1]. cbn [fst snd] in *. rewrite <- E in H2.
  specialize (IH d1 W1 H2). destruct (run C d1 l) as [d2 e2]. cbn [fst] in *. assert (g_now (fst d) <= g_now (fst d1)) by (rewrite E; destruct o; cbn [op_ok op_now] in *; lia). lia.
Qed.
Lemma chk_kept l : forall d, dev_wf d -> hist_ok (g_now (fst d)) l -> no_rekey l -> 0 <= g_now (fst d) -> u64 (g_now (fst d) - x_birth (g_chk (fst d))) <= 120000 ->
  u64 (g_now (fst d) - x_birth (g_chk (fst d))) + (g_now (fst (fst (run C d l))) - g_now (fst d)) <= 120000 -> g_chk (fst (fst (run C d l))) = g_chk (fst d).
Proof.
  induction l as [|(o, r) l IH]; intros d W HO NK NN H HF; cbn [run] in *; [reflexivity|]. destruct HO as (H1 & H2). inversion NK as [|? ? N1 N2]; subst. cbn [fst] in N1.
  destruct (step_effect C d o r W) as (X & _). destruct (step_ok C d o r W H1) as ((W1 & _) & E). pose proof (now_mono l (fst (step C d o r))) as MM. destruct (step C d o r) as [d1 e1]. cbn [fst snd] in *.
  rewrite <- E in H2. specialize (MM W1 H2). specialize (IH d1 W1 H2 N2). destruct (run C d1 l) as [d2 e2]. cbn [fst] in *.
  assert (LE : g_now (fst d) <= g_now (fst d1)) by (rewrite E; destruct o; cbn [op_ok op_now] in *; lia).
  assert (EC : g_chk (fst d1) = g_chk (fst d)).
  { destruct X as [X|[(_ & Y & _)|((k & ->) & _)]]; [exact X| |destruct N1]. exfalso. unfold COOKIE_AGE_MS in Y. lia. }
  rewrite EC in *. set (bb := x_birth (g_chk (fst d))) in *.
  assert (U : u64 (g_now (fst d1) - bb) <= u64 (g_now (fst d) - bb) + (g_now (fst d1) - g_now (fst d))).
  { unfold u64. replace (g_now (fst d1) - bb) with ((g_now (fst d) - bb) + (g_now (fst d1) - g_now (fst d))) by lia. rewrite Zplus_mod. pose proof (Z.mod_pos_bound (g_now (fst d) - bb) 18446744073709551616 ltac:(lia)).
    pose proof (Z.mod_le (g_now (fst d1) - g_now (fst d)) 18446744073709551616 ltac:(lia) ltac:(lia)). pose proof (Z.mod_pos_bound (g_now (fst d1) - g_now (fst d)) 18446744073709551616 ltac:(lia)).
    etransitivity; [apply Z.mod_le; lia|lia]. }
  apply IH; lia.
Qed.
Lemma u64_now l d : dev_wf d -> hist_ok (g_now (fst d)) l -> 0 <= g_now (fst d) -> u64 (g_now (fst d) - x_birth (g_chk (fst d))) + (g_now (fst (fst (run C d l))) - g_now (fst d)) <= 120000 ->
  u64 (g_now (fst (fst (run C d l))) - x_birth (g_chk (fst d))) <= 120000.
Proof.
  intros W HO NN H. pose proof (now_mono l d W HO) as M. set (n2 := g_now (fst (fst (run C d l)))) in *. set (n1 := g_now (fst d)) in *. set (bb := x_birth _) in *.
  unfold u64 in *. replace (n2 - bb) with ((n1 - bb) + (n2 - n1)) by lia. rewrite Zplus_mod. pose proof (Z.mod_pos_bound (n1 - bb) 18446744073709551616 ltac:(lia)).
  pose proof (Z.mod_le (n2 - n1) 18446744073709551616 ltac:(lia) ltac:(lia)). pose proof (Z.mod_pos_bound (n2 - n1) 18446744073709551616 ltac:(lia)). etransitivity; [apply Z.mod_le; lia|lia].
Qed.

(** *** Returning the cookie *)
Lemma app_inj_len (x y z w : list Z) : length x = length z -> x ++ y = z ++ w -> x = z /\ y = w.
Proof.
  revert z. induction x as [|a x IH]; intros [|c z] L E; cbn in *; try discriminate; [split; [reflexivity|exact E]|]. injection E as -> E. destruct (IH z ltac:(lia) E) as (-> & ->). split; reflexivity.
Qed.
Lemma returned_valid A B x ck h t m ip port now : zlen A = 65 -> sent_init C A (c_hash C (LABEL_MAC1 ++ B)) h t m -> x_mac1key x = c_hash C (LABEL_MAC1 ++ B) ->
  returns C ck m -> ck = cookie_for C (x_secret x) ip port -> u64 (now - x_birth x) <= 120000 -> slice m 214 32 <> zbytes 32 -> cookie_validate C x m 182 ip port now = MacCookie.
Proof.
  intros LA SI EX (b2 & mac1 & E2 & L2 & L1) EC UA NZ. destruct (sent_parts _ _ _ _ _ LA SI) as (_ & LM & _ & body & mac2 & E1 & LB & LM2).
  pose proof (co_mac C OK (c_hash C (LABEL_MAC1 ++ B)) body) as LH. assert (LH' : length (c_hmac C (c_hash C (LABEL_MAC1 ++ B)) body) = 32%nat) by (unfold zlen in LH; lia).
  rewrite E1 in E2. apply app_inj_len in E2; [|lia]. destruct E2 as (<- & E2). apply app_inj_len in E2; [|lia]. destruct E2 as (<- & E2).
  unfold cookie_validate. assert (Z1 : (zlen m <? Z.of_nat 182 + 64) = false) by lia. rewrite Z1. cbn zeta.
  assert (S1 : slice m 182 32 = c_hmac C (c_hash C (LABEL_MAC1 ++ B)) body) by (rewrite E1; apply slice_mid; [exact LB|exact LH']).
  assert (S2 : slice m 214 32 = mac2) by (rewrite E1; set (hm := c_hmac C (c_hash C (LABEL_MAC1 ++ B)) body) in *; replace (body ++ hm ++ mac2) with ((body ++ hm) ++ mac2 ++ []) by (rewrite app_nil_r, <- app_assoc; reflexivity); apply slice_mid; [rewrite app_length, LB, LH'; reflexivity|exact LM2]).
  assert (F1 : firstn 182 m = body) by (rewrite E1, firstn_app, LB, Nat.sub_diag, firstn_O, app_nil_r; apply firstn_all2; lia).
  assert (F2 : firstn 214 m = body ++ c_hmac C (c_hash C (LABEL_MAC1 ++ B)) body).
  { rewrite E1, app_assoc, firstn_app, app_length, LB, LH'. change (214 - (182 + 32))%nat with 0%nat. rewrite firstn_O, app_nil_r. apply firstn_all2. rewrite app_length, LB, LH'. lia. }
  change (182 + 32)%nat with 214%nat. rewrite S1, F1, EX, leqb_refl. cbn [negb]. destruct (leqb (slice m 214 32) (zbytes 32)) eqn:EL; [apply leqb_eq in EL; contradiction|].
  unfold COOKIE_AGE_MS. assert (Z2 : (120000 <? u64 (now - x_birth x)) = false) by lia. rewrite Z2. rewrite F2, S2, E2. rewrite cookie_src in EC. rewrite EC, leqb_refl. reflexivity.
Qed.

(** C74, third part.  B is under load and receives A's initiation [m], which A is
    waiting on, at ([ip], [port]).  It answers with a cookie; when A gets that, it
    changes nothing else, and the next initiation [m'] A makes for B, at most two
    minutes later, is answered by B - still under load or not - if it comes from the
    same address while B's secret is at most two minutes old. *)
Theorem wg_cookie_gets_through : forall a A b B psk ra rb opsA opsB i j tA m r ip port,
  c_pub C a = Some A -> c_pub C b = Some B -> no_rekey opsA -> no_rekey opsB -> (i < 8)%nat -> (j < 8)%nat ->
  (* A and B are peers of each other with one pre-shared key *)
  nth_error (peers_of opsA) i = Some (B, psk) -> nth_error (peers_of opsB) j = Some (A, psk) ->
  (forall k q, (k < j)%nat -> nth_error (peers_of opsB) k <> Some (A, q)) ->
  hist_ok 0 ((OKey b, rb) :: opsB) ->
  let dA := fst (run C dev_init ((OKey a, ra) :: opsA)) in
  let dB := fst (run C dev_init ((OKey b, rb) :: opsB)) in
  (* [m] is A's last initiation; no cookie has been taken for it *)
  last_init (Z.of_nat i) (trace C ((OKey a, ra) :: opsA)) = Some (tA, m) ->
  h_state (p_hs (nth i (snd dA) peer_zero)) = CreatedInit ->
  (forall k, (k < 8)%nat -> awaits_cookie dA k (mi_sender m) <-> k = i) ->
  (* B is under load and [m] has no valid cookie *)
  g_load (fst dB) = true -> g_now (fst dB) < 2 ^ 63 -> ~ mac2_ok C dB m 182 ip port -> reply_random dB r ->
  exists dB1 c, step C dB (ORecv m ip port) r = (dB1, [EUdp ip port c]) /\
  forall ipB portB rA, exists dA1, step C dA (ORecv c ipB portB) rA = (dA1, []) /\
  forall opsA2 opsB2 t' m',
  (* A goes on, gets no further cookie, and waits on a new initiation *)
  no_rekey opsA2 -> Forall (fun o => no_cookie (fst o)) opsA2 ->
  let histA := opsA ++ (ORecv c ipB portB, rA) :: opsA2 in
  let dA2 := fst (run C dev_init ((OKey a, ra) :: histA)) in
  last_init (Z.of_nat i) (trace C ((OKey a, ra) :: histA)) = Some (t', m') -> In (EInit (Z.of_nat i) t' m') (snd (run C dA1 opsA2)) ->
  h_state (p_hs (nth i (snd dA2) peer_zero)) = CreatedInit ->
  0 <= g_now (fst dA) <= t' -> t' <= g_now (fst dA) + 120000 -> t' < 2 ^ 64 ->
  slice m' 214 32 <> zbytes 32 ->
  (* B goes on *)
  no_rekey opsB2 -> let histB := opsB ++ (ORecv m ip port, r) :: opsB2 in
  hist_ok 0 ((OKey b, rb) :: histB) ->
  let dB2 := fst (run C dev_init ((OKey b, rb) :: histB)) in
  u64 (g_now (fst dB1) - x_birth (g_chk (fst dB1))) + (g_now (fst dB2) - g_now (fst dB1)) <= 120000 ->
  match last_hello (Z.of_nat j) (trace C ((OKey b, rb) :: histB)) with None => True
    | Some (ts, t) => lexgt (timestamp t') ts = true /\ 0 <= t /\ t + 5000 <= g_now (fst dB2) end ->
  forall e x r2 E, c_pub C e = Some E -> u32 (rdle32 x) <> 0 ->
  exists answer k1 k2 rest, snd (step C dB2 (ORecv m' ip port) (e :: x :: r2)) =
    EHello (Z.of_nat j) (timestamp t') (g_now (fst dB2)) :: EUdp ip port answer :: ENew (Z.of_nat j) k1 k2 (g_now (fst dB2)) :: rest.
Proof.
  intros a A b B psk ra rb opsA opsB i j tA m r ip port HA HB NKA NKB Hi Hj PA PB PF HOB dA dB LI ST AW LD NW N2 RR.
  pose proof (co_pub C OK _ _ HA) as LA. pose proof (co_pub C OK _ _ HB) as LB.
  pose proof (CI_all C a A opsA ra HA NKA) as CA. fold dA in CA. fold (trace C ((OKey a, ra) :: opsA)) in CA.
  pose proof (CI_all C b B opsB rb HB NKB) as CB. fold dB in CB. fold (trace C ((OKey b, rb) :: opsB)) in CB.
  destruct (now_run C _ HOB) as (WB & NB). fold dB in WB, NB.
  pose proof (proj2 (proj2 CA) i Hi) as Pi. rewrite PA, LI in Pi.
  pose proof (pi_wait _ _ _ _ _ _ _ _ Pi ST tA m eq_refl) as SI. destruct (sent_parts _ _ _ _ _ LA SI) as (M1 & M2 & M3 & body & mac2 & M4 & M5 & M6).
  assert (XIB : XI dB) by (apply (XI_run C _ dev_init dev_init_wf HOB); [cbn; lia|right; cbn; lia]).
  (* B's reply *)
  destruct (reply_made dB m ip port r RR) as (dB1 & n & box & R1 & R2 & R3 & R4 & R5 & R6).
  assert (S1 : step C dB (ORecv m ip port) r = (dB1, [EUdp ip port (le32 3 ++ slice m 4 4 ++ n ++ box)])).
  { assert (V1 : cookie_validate C (g_chk (fst dB)) m 182 ip port (g_now (fst dB)) <> MacCookie) by (apply mac2_invalid; [exact XIB|lia|exact N2]).
    assert (V2 : cookie_validate C (g_chk (fst dB)) m 182 ip port (g_now (fst dB)) <> MacInvalid) by (rewrite M4, <- (gi_mac _ _ _ _ (proj1 (proj2 CB))); apply (mac_ok C OK); assumption).
    unfold step, packet_receive. assert (Z4 : (zlen m <? 4) = false) by lia. rewrite Z4, M1. change (1 =? 1) with true. cbn match. unfold handle_initiation. assert (Z5 : (zlen m <? INIT_LEN) = false) by (unfold INIT_LEN; lia). rewrite Z5.
    change (Z.to_nat INIT_MAC) with 182%nat. cbn [up_rng g_chk g_now g_load]. rewrite LD. destruct (cookie_validate C (g_chk (fst dB)) m 182 ip port (g_now (fst dB))); [congruence| |congruence]. cbn [andb negb]. exact R1. }
  exists dB1, (le32 3 ++ slice m 4 4 ++ n ++ box). split; [exact S1|]. intros ipB portB rA.
  (* A takes the cookie *)
  destruct CA as (CA1 & CA2 & CA3). 
  assert (L1 : slice m 182 32 = c_last1 (p_cookie (nth i (snd dA) peer_zero))).
  { destruct (pi_last _ _ _ _ _ _ _ _ Pi ST tA m eq_refl) as (k & bd & mc & Q1 & Q2 & Q3). apply (mac2_len C OK) in Q3. assert (Q4 : length (c_hmac C k bd) = 32%nat) by (pose proof (co_mac C OK k bd); unfold zlen in *; lia).
    rewrite Q2, Q1. apply slice_mid; [|exact Q4]. assert (length m = 246%nat) by (unfold zlen in M2; lia). rewrite Q2, Q1, !app_length, Q4, Q3 in H. lia. }
  set (ck := cookie_for C (x_secret (g_chk (fst dB1))) ip port).
  assert (L4 : length (slice m 4 4) = 4%nat) by (unfold slice; rewrite firstn_length, skipn_length; unfold zlen in M2; lia).
  assert (XD : c_xdec C (c_deckey (p_cookie (nth i (snd dA) peer_zero))) n box (c_last1 (p_cookie (nth i (snd dA) peer_zero))) = Some ck).
  { rewrite (pi_dec _ _ _ _ _ _ _ _ Pi), <- L1, <- (gi_enc _ _ _ _ (proj1 (proj2 CB))). exact R4. }
  destruct (cookie_taken dA i n box (slice m 4 4) ck ipB portB rA ltac:(lia) L4 R2 R3 ltac:(rewrite CA1; exact AW) XD) as (dA1 & SA & QA).
  exists dA1. split; [exact SA|]. intros opsA2 opsB2 t' m' NKA2 NCA histA dA2 LI2 IN2 ST2 TT TT1 TT2 NZ NKB2 histB HOB2 dB2 UB LH e x r2 E HE HX.
  set (c := le32 3 ++ slice m 4 4 ++ n ++ box) in *.
  (* what A sends *)
  assert (NKA' : no_rekey histA) by (apply Forall_app; split; [exact NKA|constructor; [exact I|exact NKA2]]).
  assert (NKB' : no_rekey histB) by (apply Forall_app; split; [exact NKB|constructor; [exact I|exact NKB2]]).
  pose proof (CI_all C a A histA ra HA NKA') as CA'. fold dA2 in CA'. fold (trace C ((OKey a, ra) :: histA)) in CA'.
  pose proof (CI_all C b B histB rb HB NKB') as CB'. fold dB2 in CB'. fold (trace C ((OKey b, rb) :: histB)) in CB'.
  assert (PA' : nth_error (peers_of histA) i = Some (B, psk)) by (unfold histA; rewrite peers_of_app, nth_error_app1; [exact PA|apply nth_error_Some; congruence]).
  assert (PB' : nth_error (peers_of histB) j = Some (A, psk)) by (unfold histB; rewrite peers_of_app, nth_error_app1; [exact PB|apply nth_error_Some; congruence]).
  pose proof (proj2 (proj2 CA') i Hi) as Pi2. rewrite PA', LI2 in Pi2. pose proof (pi_wait _ _ _ _ _ _ _ _ Pi2 ST2 t' m' eq_refl) as SI2.
  assert (RT : returns C ck m').
  { pose proof (q_run C OK ck (g_now (fst dA)) a A LA i opsA2 (peers_of opsA ++ peers_of [(ORecv c ipB portB, rA)]) dA1 (trace C ((OKey a, ra) :: opsA) ++ []) Hi ltac:(rewrite nth_error_app1; [congruence|apply nth_error_Some; congruence])) as Q.
    pose proof (CI_step C a A (peers_of opsA) dA (ORecv c ipB portB) rA (trace C ((OKey a, ra) :: opsA)) (conj CA1 (conj CA2 CA3)) I) as CS. rewrite SA in CS. cbn [fst snd] in CS. specialize (Q CS QA NKA2 NCA).
    rewrite Forall_forall in Q. apply (Q _ IN2); [reflexivity|]. unfold u64, COOKIE_AGE_MS. rewrite Z.mod_small; lia. }
  (* B's state when it gets [m'] *)
  assert (RUNB : dB2 = fst (run C dB1 opsB2) /\ dev_wf dB1 /\ hist_ok (g_now (fst dB1)) opsB2).
  { unfold dB2, histB in *. change ((OKey b, rb) :: opsB ++ (ORecv m ip port, r) :: opsB2) with (((OKey b, rb) :: opsB) ++ (ORecv m ip port, r) :: opsB2) in *. rewrite run_app. fold dB.
    destruct (hist_tail ((OKey b, rb) :: opsB) dev_init ((ORecv m ip port, r) :: opsB2) dev_init_wf HOB2) as (T1 & T2). fold dB in T1, T2. destruct T2 as (T2 & T3).
    destruct (step_ok C dB (ORecv m ip port) r WB T2) as ((W1 & _) & EN). cbn [run fst]. rewrite S1 in *. cbn [fst snd] in *. split; [destruct (run C dB1 opsB2); reflexivity|]. split; [exact W1|]. rewrite EN. exact T3. }
  destruct RUNB as (RB1 & RB2 & RB3).
  assert (EK : g_chk (fst dB2) = g_chk (fst dB1)) by (rewrite RB1; apply chk_kept; [exact RB2|exact RB3|exact NKB2|lia|exact R6|rewrite <- RB1; exact UB]).
  assert (UB2 : u64 (g_now (fst dB2) - x_birth (g_chk (fst dB2))) <= 120000) by (rewrite EK, RB1; apply u64_now; [exact RB2|exact RB3|lia|rewrite <- RB1; exact UB]).
  destruct CB' as (CB1 & CB2 & CB3).
  pose proof (returned_valid A B (g_chk (fst dB2)) ck (p_hs (nth i (snd dA2) peer_zero)) t' m' ip port (g_now (fst dB2)) LA SI2 (gi_mac _ _ _ _ CB2) RT ltac:(rewrite EK; reflexivity) UB2 NZ) as CV.
  pose proof (CB3 j Hj) as Pj. rewrite PB' in Pj.
  destruct (co_dh C OK _ _ _ _ HA HB) as (ss & D1 & D2).
  destruct (pi_hs _ _ _ _ _ _ _ _ Pi2 ss D1) as (H1 & H2 & H3). destruct (pi_hs _ _ _ _ _ _ _ _ Pj ss D2) as (J1 & J2 & J3).
  assert (FP : find_pub (snd dB2) A 0 = Some j).
  { apply (find_pub_first (snd dB2) A 0 j); [lia|apply (pi_act _ _ _ _ _ _ _ _ Pj)|apply (pi_pub _ _ _ _ _ _ _ _ Pj)|]. intros k Hk HAc Hpub. pose proof (CB3 k ltac:(lia)) as Pk.
    destruct (nth_error (peers_of histB) k) as [[pk qk]|] eqn:EKk; [|destruct Pk; congruence]. pose proof (pi_pub _ _ _ _ _ _ _ _ Pk) as E1. assert (pk = A) as -> by congruence.
    apply (PF k qk Hk). unfold histB in EKk. rewrite peers_of_app, nth_error_app1 in EKk; [exact EKk|]. assert (j < length (peers_of opsB))%nat by (apply nth_error_Some; congruence). lia. }
  destruct (now_run C _ HOB2) as (_ & NB2). fold dB2 in NB2.
  assert (RL : 0 < p_lastinit (nth j (snd dB2) peer_zero) -> REKEY_TIMEOUT_MS <= u64 (g_now (fst dB2) - p_lastinit (nth j (snd dB2) peer_zero))).
  { pose proof (pi_ts _ _ _ _ _ _ _ _ Pj) as T. destruct (last_hello (Z.of_nat j) (trace C ((OKey b, rb) :: histB))) as [[ts t]|]; destruct T as (T1 & T2); rewrite T2; [|lia]. intros _. unfold REKEY_TIMEOUT_MS. destruct LH as (_ & U1 & U2). unfold u64. rewrite Z.mod_small; lia. }
  assert (LX : lexgt (timestamp t') (p_ts (nth j (snd dB2) peer_zero)) = true).
  { pose proof (pi_ts _ _ _ _ _ _ _ _ Pj) as T. destruct (last_hello (Z.of_nat j) (trace C ((OKey b, rb) :: histB))) as [[ts t]|]; destruct T as (T1 & T2); rewrite T1; [apply LH|apply lexgt_zero; lia]. }
  destruct dB2 as [gB psB]. cbn [fst snd] in *.
  destruct (responder_step C OK a A b B gB psB (p_hs (nth i (snd dA2) peer_zero)) t' m' j e x r2 E ip port psk HA HB SI2 H1 ltac:(congruence) H3 (gi_priv _ _ _ _ CB2) (gi_pub _ _ _ _ CB2) (gi_mac _ _ _ _ CB2) (or_intror CV) FP ltac:(lia) J1 ltac:(congruence) J3 (pi_mac _ _ _ _ _ _ _ _ Pj) RL LX HE HX)
    as (dB' & m2 & sk & rk & evs & p3 & g2 & Y1 & _).
  exists m2, sk, rk, evs. rewrite Y1. reflexivity.
Qed.
End Trip.
Print Assumptions wg_cookie_gets_through.

(** ** The hypotheses are met *)
Definition rL : list (list Z) := [repeat 71 32; repeat 72 16].
Definition cL : list Z := last_udp (snd (step toy dBL (ORecv mInit ipA 5555) rL)).
Definition opsA2L : list (op * list (list Z)) := [(OPoll 7000, [repeat 45 32; idx_block 9])].
Definition histAL := tl opsA1 ++ (ORecv cL ipB 5556, []) :: opsA2L.
Definition dA1L := fst (run toy dev_init ((OKey keyA, []) :: tl opsA1)).
Definition dA2L := fst (step toy dA1L (ORecv cL ipB 5556) []).
Definition mL : list Z := match last_init 0 (trace toy ((OKey keyA, []) :: histAL)) with Some (_, m) => m | None => [] end.
Definition histBL := opsBL ++ [(ORecv mInit ipA 5555, rL)].
Definition dB1L := fst (step toy dBL (ORecv mInit ipA 5555) rL).
(** A's state, B's state, the cookie, A's next initiation: all as the theorem asks;
    B, still under load, answers it. *)
Example cookie_toy :
  no_rekey (tl opsA1) /\ no_rekey opsBL /\ nth_error (peers_of (tl opsA1)) 0 = Some (pubB, toy_psk) /\ nth_error (peers_of opsBL) 0 = Some (pubA, toy_psk) /\
  hist_ok 0 ((OKey keyB, []) :: opsBL) /\ last_init 0 (trace toy ((OKey keyA, []) :: tl opsA1)) = Some (1000, mInit) /\ h_state (p_hs (nth 0 (snd dA1L) peer_zero)) = CreatedInit /\
  (forall k, (k < 8)%nat -> awaits_cookie dA1L k (mi_sender mInit) <-> k = 0%nat) /\
  g_load (fst dBL) = true /\ g_now (fst dBL) < 2 ^ 63 /\ ~ mac2_ok toy dBL mInit 182 ipA 5555 /\ reply_random dBL rL.
Proof.
  destruct opsBL_ok as (_ & H2 & H3). split; [repeat constructor|]. split; [exact H2|]. split; [reflexivity|]. split; [reflexivity|]. split; [exact H3|]. split; [vm_compute; reflexivity|]. split; [vm_compute; reflexivity|].
  split; [intros k Hk; do 8 (destruct k as [|k]; [vm_compute; split; [intros (X1 & X2 & X3); congruence || reflexivity|intros X; congruence || (repeat split)]|]); lia|].
  split; [vm_compute; reflexivity|]. split; [vm_compute; reflexivity|]. split; [exact mInit_nocookie|].
  exists (repeat 72 16). split; [reflexivity|]. right. split; [vm_compute; reflexivity|exists (repeat 71 32), []; reflexivity].
Qed.
Example cookie_returned_toy :
  no_rekey opsA2L /\ Forall (fun o => no_cookie (fst o)) opsA2L /\ last_init 0 (trace toy ((OKey keyA, []) :: histAL)) = Some (7000, mL) /\ In (EInit 0 7000 mL) (snd (run toy dA2L opsA2L)) /\
  h_state (p_hs (nth 0 (snd (fst (run toy dev_init ((OKey keyA, []) :: histAL)))) peer_zero)) = CreatedInit /\ g_now (fst dA1L) = 1000 /\ slice mL 214 32 <> zbytes 32 /\
  hist_ok 0 ((OKey keyB, []) :: histBL) /\ u64 (g_now (fst dB1L) - x_birth (g_chk (fst dB1L))) = 0 /\ last_hello 0 (trace toy ((OKey keyB, []) :: histBL)) = None /\
  c_pub toy (repeat 44 32) <> None /\ u32 (rdle32 (idx_block 6)) <> 0 /\ g_load (fst dB1L) = true /\ length (snd (step toy dB1L (ORecv mL ipA 5555) [repeat 44 32; idx_block 6])) = 3%nat.
Proof.
  split; [repeat constructor|]. split; [repeat constructor|]. split; [vm_compute; reflexivity|]. split; [vm_compute; left; reflexivity|]. split; [vm_compute; reflexivity|]. split; [vm_compute; reflexivity|].
  split; [vm_compute; discriminate|]. split; [apply hist_okb_ok; vm_compute; reflexivity|]. split; [vm_compute; reflexivity|]. split; [vm_compute; reflexivity|]. split; [discriminate|]. split; [vm_compute; discriminate|].
  split; vm_compute; reflexivity.
Qed.
