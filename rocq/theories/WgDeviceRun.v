(** wolfGuard device: every history of calls is a sequence of elementary changes
    of key slots, and what that says about the trace. *)
From Verif Require Import Base Arp WgAllowedIps WgCounter WgCounterProps WgDevice WgDeviceInv.

(** ** The whole device *)
Definition dview := nat -> view.
Inductive gsteps (now : Z) : dview -> list ev -> dview -> Prop :=
| G_refl V V' : (forall i s, V' i s = V i s) -> gsteps now V [] V'
| G_cons V V1 V2 i e1 e2 : kstep (Z.of_nat i) now (V i) e1 (V1 i) ->
    (forall j, j <> i -> forall s, V1 j s = V j s) -> gsteps now V1 e2 V2 -> gsteps now V (e1 ++ e2) V2.

Lemma gsteps_ext now V e V' W : (forall i s, W i s = V i s) -> gsteps now V e V' -> gsteps now W e V'.
Proof.
  intros H K. destruct K as [V V' H1|V V1 V2 i e1 e2 K1 K2 K3].
  - apply G_refl. intros i s. rewrite H. auto.
  - eapply G_cons; [eapply kstep_ext; [apply H|exact K1]| |exact K3]. intros j N s. rewrite H. auto.
Qed.
Lemma gsteps_app now V e V1 : gsteps now V e V1 -> forall e' V2, gsteps now V1 e' V2 -> gsteps now V (e ++ e') V2.
Proof.
  induction 1 as [V V' H|V V1 V2 i e1 e2 K1 K2 K3 IH]; intros e' W KW.
  - cbn. eapply gsteps_ext; [|exact KW]. intros i s. symmetry. apply H.
  - rewrite <- app_assoc. eapply G_cons; [exact K1|exact K2|]. apply IH, KW.
Qed.
Lemma gsteps_peer now i v e v' : ksteps (Z.of_nat i) now v e v' -> forall V V',
  (forall s, V i s = v s) -> (forall s, V' i s = v' s) -> (forall j, j <> i -> forall s, V' j s = V j s) -> gsteps now V e V'.
Proof.
  induction 1 as [v v' H|v v1 v2 e1 e2 K KS IH]; intros V V' E1 E2 E3.
  - apply G_refl. intros j s. destruct (Nat.eq_dec j i) as [->|N]; [rewrite E2, E1; apply H|apply E3, N].
  - eapply G_cons with (i := i) (V1 := fun j => if Nat.eqb j i then v1 else V j).
    + rewrite Nat.eqb_refl. eapply kstep_ext; [exact E1|exact K].
    + intros j N s. apply Nat.eqb_neq in N. rewrite N. reflexivity.
    + apply IH; [intros s; rewrite Nat.eqb_refl; reflexivity|exact E2|].
      intros j N s. rewrite E3 by exact N. apply Nat.eqb_neq in N. rewrite N. reflexivity.
Qed.
Lemma gsteps_none now e : Forall neutral e -> forall V V', (forall i s, V' i s = V i s) -> gsteps now V e V'.
Proof.
  induction 1 as [|x l H HN IH]; intros V V' E.
  - apply G_refl, E.
  - change (x :: l) with ([x] ++ l). eapply G_cons with (i := 0%nat) (V1 := V); [apply K_none; [exact H|reflexivity]|reflexivity|].
    apply IH, E.
Qed.

Definition gview (d : dev) : dview := fun i => pview (nth i (snd d) peer_zero).
Definition dev_wf (d : dev) : Prop := length (snd d) = 8%nat /\ Forall peer_wf (snd d).

Lemma peer_zero_wf : peer_wf peer_zero.
Proof. constructor; cbn; [apply kps_zero_wf|reflexivity|lia]. Qed.
Lemma nth_wf d i : dev_wf d -> peer_wf (nth i (snd d) peer_zero).
Proof.
  intros (L & F). destruct (le_lt_dec (length (snd d)) i) as [G|G].
  - rewrite nth_overflow by exact G. apply peer_zero_wf.
  - eapply Forall_forall; [exact F|]. apply nth_In, G.
Qed.
Lemma lset_wf g ps i p : dev_wf (g, ps) -> peer_wf p -> dev_wf (g, lset ps i p).
Proof.
  intros (L & F) W. cbn [snd] in *. split; cbn [snd]; [rewrite lset_length; exact L|].
  apply Forall_forall. intros x I. apply In_nth with (d := peer_zero) in I. destruct I as (j & Hj & E). rewrite lset_length in Hj.
  rewrite nth_lset in E. destruct (_ && _); [subst; exact W|]. subst. eapply Forall_forall; [exact F|]. apply nth_In, Hj.
Qed.
Lemma dev_wf_g g g' ps : dev_wf (g, ps) -> dev_wf (g', ps).
Proof. intros H. exact H. Qed.

Section Run.
Context (C : crypto).

(** What one call does. *)
Definition sok (d : dev) (r : dev * list ev) : Prop :=
  dev_wf (fst r) /\ gsteps (g_now (fst (fst r))) (gview d) (snd r) (gview (fst r)).

Lemma gview_lset g ps i p : (i < length ps)%nat -> (forall s, gview (g, lset ps i p) i s = pview p s) /\
  (forall j, j <> i -> forall s, gview (g, lset ps i p) j s = gview (g, ps) j s).
Proof.
  intros H. unfold gview. cbn [snd]. split; [intros s; rewrite nth_lset_eq by exact H; reflexivity|].
  intros j N s. rewrite nth_lset_ne by exact N. reflexivity.
Qed.

Lemma on_peer_ok d i a : dev_wf d -> (i < 8)%nat -> good (Z.of_nat i) a ->
  sok d (on_peer d i a) /\ gsame (fst d) (fst (fst (on_peer d i a))).
Proof.
  intros W Hi HA. unfold on_peer. specialize (HA (fst d) _ (nth_wf d i W)).
  destruct (a (fst d) (nth i (snd d) peer_zero)) as [[g p] e]. destruct HA as (A1 & A2 & A3 & A4 & A5).
  cbn [fst snd]. split; [|exact A1]. destruct d as [g0 ps]. cbn [fst snd] in *. pose proof W as (L & _). cbn [snd] in L.
  unfold sok. split; cbn [fst snd]; [exact (lset_wf g0 ps i p W A2)|]. destruct A1 as (EN & _). rewrite EN.
  destruct (gview_lset g ps i p ltac:(lia)) as (G1 & G2).
  eapply gsteps_peer; [exact A5|reflexivity|exact G1|exact G2].
Qed.

Lemma tick_all_ok n : forall d i, dev_wf d -> (i + n <= 8)%nat ->
  sok d (tick_all C d n i) /\ gsame (fst d) (fst (fst (tick_all C d n i))).
Proof.
  induction n as [|n IH]; intros d i W L; cbn [tick_all].
  - split; [|apply gsame_refl]. split; [exact W|]. apply G_refl. reflexivity.
  - destruct (on_peer_ok d i (tick C (Z.of_nat i)) W ltac:(lia) (tick_good C _)) as ((A1 & A2) & A3).
    destruct (on_peer d i (tick C (Z.of_nat i))) as [d1 e1]. cbn [fst snd] in *.
    destruct (IH d1 (S i) A1 ltac:(lia)) as ((B1 & B2) & B3).
    destruct (tick_all C d1 n (S i)) as [d2 e2]. cbn [fst snd] in *.
    split; [|eapply gsame_trans; eassumption]. split; [exact B1|]. cbn [fst snd].
    eapply gsteps_app; [|exact B2]. destruct B3 as (EN & _). rewrite EN. exact A2.
Qed.

Lemma sok_refl_g d g : dev_wf d -> sok d ((g, snd d), []).
Proof. intros W. split; [exact W|]. apply G_refl. reflexivity. Qed.
Lemma sok_refl d : dev_wf d -> sok d (d, []).
Proof. intros W. split; [exact W|]. apply G_refl. reflexivity. Qed.

Lemma create_reply_now g m off ip port : g_now (fst (create_reply C g m off ip port)) = g_now g.
Proof.
  unfold create_reply. destruct (COOKIE_AGE_MS <? _).
  - destruct (g_rng g) as [|b r] eqn:E; cbn; [reflexivity|].
    destruct r as [|n r]; cbn; [reflexivity|]. destruct (c_xenc C _ _ _ _); reflexivity.
  - cbn. destruct (g_rng g) as [|n r]; cbn; [reflexivity|]. destruct (c_xenc C _ _ _ _); reflexivity.
Qed.
Lemma send_reply_ok d m off ip port : dev_wf d -> sok d (send_reply C d m off ip port).
Proof.
  intros W. unfold send_reply. destruct (create_reply C (fst d) m off ip port) as [g [r|]].
  - split; [exact W|]. apply gsteps_none; [repeat constructor|reflexivity].
  - apply sok_refl_g, W.
Qed.

Lemma find_pub_bound ps pub : forall i j, find_pub ps pub i = Some j -> (i <= j < i + length ps)%nat.
Proof.
  induction ps as [|p ps IH]; intros i j; cbn [find_pub]; [discriminate|]. destruct (_ && _); [intros [= <-]; cbn; lia|].
  intros H. apply IH in H. cbn [length]. lia.
Qed.
Lemma find_wait_bound ps x : forall i j, find_wait ps x i = Some j -> (i <= j < i + length ps)%nat.
Proof.
  induction ps as [|p ps IH]; intros i j; cbn [find_wait]; [discriminate|]. destruct (_ && _); [intros [= <-]; cbn; lia|].
  intros H. apply IH in H. cbn [length]. lia.
Qed.
Lemma find_mac1_bound ps x : forall i j, find_mac1 ps x i = Some j -> (i <= j < i + length ps)%nat.
Proof.
  induction ps as [|p ps IH]; intros i j; cbn [find_mac1]; [discriminate|]. destruct (_ && _); [intros [= <-]; cbn; lia|].
  intros H. apply IH in H. cbn [length]. lia.
Qed.
(** The peer and slot found by a receiver index. *)
Lemma find_idx_spec ps x : forall i j s, find_idx ps x i = Some (j, s) -> (i <= j < i + length ps)%nat /\
  let p := nth (j - i) ps peer_zero in p_active p = true /\ k_lidx (slot (p_kps p) s) = x /\
  (s_cur (p_kps p) = Some s \/ s_prev (p_kps p) = Some s \/ s_next (p_kps p) = Some s).
Proof.
  induction ps as [|p ps IH]; intros i j s; cbn [find_idx]; [discriminate|].
  destruct (p_active p) eqn:A; cbn [negb].
  - unfold match_idx.
    destruct (s_cur (p_kps p)) as [a|] eqn:E1; [destruct (Z.eqb_spec (k_lidx (slot (p_kps p) a)) x);
      [intros [= <- <-]; rewrite Nat.sub_diag; cbn [nth length]; split; [lia|]; rewrite E1; auto|]|];
    (destruct (s_prev (p_kps p)) as [b|] eqn:E2; [destruct (Z.eqb_spec (k_lidx (slot (p_kps p) b)) x);
      [intros [= <- <-]; rewrite Nat.sub_diag; cbn [nth length]; split; [lia|]; rewrite E2; auto|]|]);
    (destruct (s_next (p_kps p)) as [c|] eqn:E3; [destruct (Z.eqb_spec (k_lidx (slot (p_kps p) c)) x);
      [intros [= <- <-]; rewrite Nat.sub_diag; cbn [nth length]; split; [lia|]; rewrite E3; auto|]|]);
    intros H; apply IH in H; destruct H as (H1 & H2); (split; [cbn [length]; lia|]);
    (replace (j - i)%nat with (S (j - S i)) by lia); exact H2.
  - intros H. apply IH in H. destruct H as (H1 & H2). split; [cbn [length]; lia|].
    replace (j - i)%nat with (S (j - S i)) by lia. exact H2.
Qed.

Lemma confirm_ok i now k s : kps_wf k -> (s < 3)%nat -> kps_wf (confirm k s) /\ ksteps i now (slot k) [] (slot (confirm k s)).
Proof.
  intros W L. unfold confirm. destruct (oeqb (Some s) (s_next k)) eqn:E; [|split; [exact W|apply KS_refl; reflexivity]].
  destruct (s_next k) as [n|] eqn:EN; [|discriminate]. cbn in E. apply Nat.eqb_eq in E. subst n.
  pose proof (kw_len _ W) as LEN. pose proof (kw_cn _ W) as CN. rewrite EN in CN.
  split.
  - destruct W. constructor; cbn [s_slots s_cur s_prev s_next slot_lt]; auto.
    + destruct (s_prev k); [rewrite lset_length|]; assumption.
    + destruct (s_cur k); cbn [oneq] in *; auto.
    + exact I.
    + destruct (s_cur k); exact I.
  - destruct (s_prev k) as [pv|] eqn:EP.
    + apply ksteps_one. eapply K_zero with (s := pv). split; unfold slot; cbn [s_slots].
      * apply nth_lset_eq. rewrite LEN. pose proof (kw_prev _ W) as HP. rewrite EP in HP. exact HP.
      * intros t N. apply nth_lset_ne, N.
    + apply KS_refl. reflexivity.
Qed.

Lemma load_le32_byte b : Forall byte b -> 0 <= load_le32 b < 4294967296.
Proof.
  intros H. unfold load_le32, zget. assert (B : forall n, 0 <= nth n b 0 < 256).
  { intros n. destruct (le_lt_dec (length b) n) as [G|G]; [rewrite nth_overflow by exact G; lia|].
    pose proof (proj1 (Forall_forall _ _) H _ (nth_In b 0 G)) as X. exact X. }
  pose proof (B (Z.to_nat 0)). pose proof (B (Z.to_nat 1)). pose proof (B (Z.to_nat 2)). pose proof (B (Z.to_nat 3)). lia.
Qed.
Lemma Forall_slice b o n : Forall byte b -> Forall byte (slice b o n).
Proof.
  intros H. unfold slice. rewrite <- (firstn_skipn o b) in H. apply Forall_app in H. destruct H as (_ & H).
  rewrite <- (firstn_skipn n (skipn o b)) in H. apply Forall_app in H. tauto.
Qed.
Lemma rdle64_range b : Forall byte b -> 0 <= rdle64 b < 18446744073709551616.
Proof.
  intros H. unfold rdle64. pose proof (load_le32_byte b H).
  assert (H2 : Forall byte (skipn 4 b)). { rewrite <- (firstn_skipn 4 b) in H. apply Forall_app in H. tauto. }
  pose proof (load_le32_byte _ H2). lia.
Qed.

Lemma handle_data_ok d b ip port : dev_wf d -> Forall byte b -> sok d (handle_data C d b ip port) /\
  g_now (fst (fst (handle_data C d b ip port))) = g_now (fst d).
Proof.
  intros W HB. unfold handle_data. destruct d as [g ps]. pose proof (sok_refl (g, ps) W) as SR.
  destruct (zlen b <? 32); [split; [exact SR|reflexivity]|]. cbn zeta.
  destruct (find_idx ps (rdle32 (slice b 4 4)) 0) as [[i s]|] eqn:EF; [|split; [exact SR|reflexivity]].
  apply find_idx_spec in EF. rewrite Nat.sub_0_r in EF. destruct EF as (HI & _ & _ & HS). pose proof W as (L & _). cbn [snd] in L.
  set (p := nth i ps peer_zero) in *. set (k := slot (p_kps p) s).
  assert (WP : peer_wf p) by (apply (nth_wf (g, ps) i W)).
  assert (SL : (s < 3)%nat).
  { pose proof (pw_kps _ WP) as KW. destruct KW. destruct HS as [E|[E|E]]; rewrite E in *; assumption. }
  destruct (k_rvalid k) eqn:RV; cbn [negb]; [|split; [exact SR|reflexivity]].
  destruct (Z.leb_spec REJECT_AFTER_MS (u64 (g_now g - k_rbirth k))) as [AG|AG]; [split; [exact SR|reflexivity]|].
  destruct (LINK_MTU <? zlen b - 32); [split; [exact SR|reflexivity]|].
  destruct (c_dec C (k_rkey k) (rdle64 (slice b 8 8)) (skipn 16 b) []) as [pt|]; [|split; [exact SR|reflexivity]].
  set (ctr := rdle64 (slice b 8 8)). pose proof (rdle64_range _ (Forall_slice b 8 8 HB)) as CR. fold ctr in CR.
  destruct (wg_counter_validate (k_rx k) ctr) as [rx ok] eqn:EV.
  set (p1 := up_kps p (up_slot (p_kps p) s (kp_rx k rx))).
  assert (LS : (s < length (s_slots (p_kps p)))%nat) by (rewrite (kw_len _ (pw_kps _ WP)); exact SL).
  assert (W1 : peer_wf p1). { destruct WP. constructor; cbn [p1 up_kps p_kps p_arr p_cnt]; [apply up_slot_wf|..]; assumption. }
  assert (U1 : upd1 (pview p) (pview p1) s (kp_rx k rx)) by (apply slot_up, LS).
  destruct ok; cbn [negb].
  - split; [|reflexivity]. destruct (confirm_ok (Z.of_nat i) (g_now g) (p_kps p1) s (pw_kps _ W1) SL) as (CW & CS).
    set (p4 := up_trecv _ _ _).
    assert (W4 : peer_wf p4). { destruct W1. constructor; cbn [p4 up_trecv up_ep up_kps p_kps p_arr p_cnt]; assumption. }
    split; cbn [fst snd]; [exact (lset_wf g ps i p4 W W4)|].
    destruct (gview_lset g ps i p4 ltac:(lia)) as (G1 & G2).
    set (inj := match wg_inject _ _ _ with Some x => _ | None => _ end).
    assert (NI : Forall neutral inj). { unfold inj. destruct (wg_inject _ _ _); repeat constructor. }
    eapply gsteps_peer with (i := i) (v := pview p) (v' := pview p4); [|reflexivity|exact G1|exact G2].
    change (EAcc (Z.of_nat i) (k_rkey k) ctr pt (g_now g) :: inj) with ([EAcc (Z.of_nat i) (k_rkey k) ctr pt (g_now g)] ++ [] ++ inj).
    eapply KS_cons with (V1 := pview p1).
    + change (k_rkey k) with (k_rkey (pview p s)). apply K_acc; unfold pview; fold k; rewrite ?EV; auto.
    + eapply ksteps_app with (V1 := pview p4); [exact CS|]. apply ksteps_none; [exact NI|reflexivity].
  - split; [|reflexivity]. split; cbn [fst snd]; [exact (lset_wf g ps i p1 W W1)|].
    destruct (gview_lset g ps i p1 ltac:(lia)) as (G1 & G2).
    eapply gsteps_peer with (i := i) (v := pview p) (v' := pview p1); [|reflexivity|exact G1|exact G2].
    apply ksteps_one. apply K_drop with (s := s) (c := ctr); unfold pview; fold k; rewrite ?EV; auto.
Qed.

Lemma consume_initiation_facts g ps m i p ts : consume_initiation C g ps m = Some (i, p, ts) ->
  (i < length ps)%nat /\ let q := nth i ps peer_zero in
  p_kps p = p_kps q /\ p_arr p = p_arr q /\ p_cnt p = p_cnt q /\ p_active p = p_active q /\ p_pub p = p_pub q /\
  lexgt ts (p_ts q) = true /\ p_ts p = ts /\ p_lastinit p = g_now g /\
  ((0 < p_lastinit q) -> REKEY_TIMEOUT_MS <= u64 (g_now g - p_lastinit q)).
Proof.
  unfold consume_initiation. destruct (c_dh C (g_priv g) (mi_eph m)) as [dh|]; [|discriminate].
  destruct (kdf2 C _ dh) as [ck2 key]. destruct (c_dec C key 0 _ _) as [spub|]; [|discriminate].
  destruct (find_pub ps spub 0) as [j|] eqn:EF; [|discriminate]. apply find_pub_bound in EF. cbn zeta.
  destruct ((0 <? p_lastinit (nth j ps peer_zero)) && (u64 (g_now g - p_lastinit (nth j ps peer_zero)) <? REKEY_TIMEOUT_MS)) eqn:ER; [discriminate|].
  destruct (kdf2 C ck2 _) as [ck3 key2]. destruct (c_dec C key2 0 _ _) as [t|]; [|discriminate].
  destruct (lexgt t _) eqn:EL; cbn [negb]; [|discriminate]. intros [= <- <- <-]. split; [lia|]. cbn. repeat (split; [reflexivity|]).
  split; [exact EL|]. repeat (split; [reflexivity|]). lia.
Qed.

Lemma sok_pre d d0 r : (forall i s, gview d0 i s = gview d i s) -> sok d0 r -> sok d r.
Proof. intros H (A & B). split; [exact A|]. eapply gsteps_ext; [|exact B]. intros i s. symmetry. apply H. Qed.

Lemma handle_initiation_ok d b ip port : dev_wf d -> sok d (handle_initiation C d b ip port) /\
  g_now (fst (fst (handle_initiation C d b ip port))) = g_now (fst d).
Proof.
  intros W. unfold handle_initiation. destruct d as [g ps]. pose proof (sok_refl (g, ps) W) as SR.
  destruct (zlen b <? INIT_LEN); [split; [exact SR|reflexivity]|].
  set (K := match consume_initiation C (up_hpc g (u16 (g_hpc g + 1))) ps b with
            | Some (i, p, ts) => _ | None => _ end).
  assert (G : sok (g, ps) K /\ g_now (fst (fst K)) = g_now g).
  { unfold K. set (g1 := up_hpc g (u16 (g_hpc g + 1))). destruct (consume_initiation C g1 ps b) as [[[i p] ts]|] eqn:EC.
    - apply consume_initiation_facts in EC. cbn zeta in EC. destruct EC as (HI & F1 & F2 & F3 & F4 & F5 & _).
      pose proof W as (L & _). cbn [snd] in L.
      assert (WP : peer_wf p). { eapply wf_fields; [apply (nth_wf (g, ps) i W)|assumption..]. }
      assert (W1 : dev_wf (g1, lset ps i p)) by exact (lset_wf g ps i p W WP).
      destruct (on_peer_ok (g1, lset ps i p) i (answer C (Z.of_nat i) ip port) W1 ltac:(lia) (answer_good C _ ip port)) as ((A1 & A2) & A3).
      destruct (on_peer (g1, lset ps i p) i (answer C (Z.of_nat i) ip port)) as [d' e]. cbn [fst snd] in *.
      destruct A3 as (EN & _). split; [|exact EN]. split; [exact A1|]. cbn [fst snd].
      change (EHello (Z.of_nat i) ts (g_now g) :: e) with ([EHello (Z.of_nat i) ts (g_now g)] ++ e).
      eapply gsteps_app; [|exact A2]. apply gsteps_none; [repeat constructor|].
      intros j s. unfold gview, pview. cbn [snd]. rewrite nth_lset. destruct (_ && _) eqn:EJ; [|reflexivity].
      assert (j = i) as -> by (apply Nat.eqb_eq; destruct (Nat.eqb j i); [reflexivity|discriminate]). rewrite F1. reflexivity.
    - split; [apply (sok_refl_g (g, ps) g1 W)|reflexivity]. }
  assert (GR : sok (g, ps) (send_reply C (g, ps) b (Z.to_nat INIT_MAC) ip port) /\
               g_now (fst (fst (send_reply C (g, ps) b (Z.to_nat INIT_MAC) ip port))) = g_now g).
  { split; [apply send_reply_ok, W|]. unfold send_reply. cbn [fst snd]. pose proof (create_reply_now g b (Z.to_nat INIT_MAC) ip port) as E.
    destruct (create_reply C g b (Z.to_nat INIT_MAC) ip port) as [g' [r|]]; exact E. }
  destruct (cookie_validate C (g_chk g) b (Z.to_nat INIT_MAC) ip port (g_now g)); [split; [exact SR|reflexivity]| |];
    destruct (g_load g); cbn [andb negb]; assumption.
Qed.

Lemma handle_response_ok d b ip port : dev_wf d -> sok d (handle_response C d b ip port) /\
  g_now (fst (fst (handle_response C d b ip port))) = g_now (fst d).
Proof.
  intros W. unfold handle_response. destruct d as [g ps]. pose proof (sok_refl (g, ps) W) as SR.
  destruct (zlen b <? RESP_LEN); [split; [exact SR|reflexivity]|].
  set (K := match find_wait ps (mr_receiver b) 0 with Some i => _ | None => _ end).
  assert (G : sok (g, ps) K /\ g_now (fst (fst K)) = g_now g).
  { unfold K. set (g1 := up_hpc g (u16 (g_hpc g + 1))). destruct (find_wait ps (mr_receiver b) 0) as [i|] eqn:EF;
      [|split; [apply (sok_refl_g (g, ps) g1 W)|reflexivity]].
    apply find_wait_bound in EF. cbn zeta. destruct (consume_response C g1 _ b) as [h1|]; [|split; [apply (sok_refl_g (g, ps) g1 W)|reflexivity]].
    set (p := up_ep (up_hs (nth i ps peer_zero) h1) ip port). pose proof W as (L & _). cbn [snd] in L.
    assert (WP : peer_wf p). { eapply wf_fields; [apply (nth_wf (g, ps) i W)|reflexivity..]. }
    assert (W1 : dev_wf (g1, lset ps i p)) by exact (lset_wf g ps i p W WP).
    destruct (on_peer_ok (g1, lset ps i p) i (finish C (Z.of_nat i) (first_keepalive C (Z.of_nat i))) W1 ltac:(lia)
                (finish_good C _ _ (first_keepalive_good C _))) as (A & (EN & _)).
    split; [|exact EN]. eapply sok_pre; [|exact A].
    intros j s. unfold gview, pview. cbn [snd]. rewrite nth_lset. destruct (_ && _) eqn:EJ; [|reflexivity].
    assert (j = i) as -> by (apply Nat.eqb_eq; destruct (Nat.eqb j i); [reflexivity|discriminate]). reflexivity. }
  assert (GR : sok (g, ps) (send_reply C (g, ps) b (Z.to_nat RESP_MAC) ip port) /\
               g_now (fst (fst (send_reply C (g, ps) b (Z.to_nat RESP_MAC) ip port))) = g_now g).
  { split; [apply send_reply_ok, W|]. unfold send_reply. cbn [fst snd]. pose proof (create_reply_now g b (Z.to_nat RESP_MAC) ip port) as E.
    destruct (create_reply C g b (Z.to_nat RESP_MAC) ip port) as [g' [r|]]; exact E. }
  destruct (cookie_validate C (g_chk g) b (Z.to_nat RESP_MAC) ip port (g_now g)); [split; [exact SR|reflexivity]| |];
    destruct (g_load g); cbn [andb negb]; assumption.
Qed.

Lemma handle_cookie_ok d b : dev_wf d -> sok d (handle_cookie C d b) /\ g_now (fst (fst (handle_cookie C d b))) = g_now (fst d).
Proof.
  intros W. unfold handle_cookie. destruct d as [g ps]. pose proof (sok_refl (g, ps) W) as SR.
  destruct (zlen b <? 72); [split; [exact SR|reflexivity]|].
  destruct (find_mac1 ps _ 0) as [i|] eqn:EF; [|split; [exact SR|reflexivity]]. apply find_mac1_bound in EF. cbn zeta.
  set (p := up_cookie _ _). assert (WP : peer_wf p). { eapply wf_fields; [apply (nth_wf (g, ps) i W)|reflexivity..]. }
  split; [|reflexivity]. split; cbn [fst snd]; [exact (lset_wf g ps i p W WP)|]. apply G_refl.
  intros j s. unfold gview, pview. cbn [snd]. rewrite nth_lset. destruct (_ && _) eqn:EJ; [|reflexivity].
  assert (j = i) as -> by (apply Nat.eqb_eq; destruct (Nat.eqb j i); [reflexivity|discriminate]). reflexivity.
Qed.

Lemma zero_all_steps now : forall n (f : nat -> peer), (forall i, (i < n)%nat -> peer_wf (f i)) ->
  forall V V', (forall i, (i < n)%nat -> forall s, V i s = pview (f i) s) ->
    (forall i, (i < n)%nat -> (forall s, V' i s = V i s) \/ (forall s, V' i s = slot kps_zero s)) ->
    (forall i, (n <= i)%nat -> forall s, V' i s = V i s) -> gsteps now V [] V'.
Proof.
  induction n as [|n IH]; intros f HW V V' HV HV' HO.
  - apply G_refl. intros i s. apply HO. lia.
  - change (@nil ev) with (@nil ev ++ []).
    assert (B : gsteps now V [] (fun i => if Nat.eqb i n then V' i else V i)).
    { destruct (HV' n ltac:(lia)) as [E|E].
      - apply G_refl. intros i s. destruct (Nat.eqb_spec i n) as [->|]; [apply E|reflexivity].
      - eapply gsteps_peer with (i := n) (v := pview (f n)) (v' := slot kps_zero).
        + apply kps_zero_steps, (pw_kps _ (HW n ltac:(lia))).
        + apply HV. lia.
        + intros s. rewrite Nat.eqb_refl. apply E.
        + intros j N s. apply Nat.eqb_neq in N. rewrite N. reflexivity. }
    eapply gsteps_app; [exact B|]. apply IH with (f := f).
    + intros i Hi. apply HW. lia.
    + intros i Hi s. destruct (Nat.eqb_spec i n); [lia|]. apply HV. lia.
    + intros i Hi. destruct (Nat.eqb_spec i n); [lia|]. apply HV'. lia.
    + intros i Hi s. destruct (Nat.eqb_spec i n) as [->|N]; [reflexivity|]. apply HO. lia.
Qed.

Lemma find_free_bound ps : forall i j, find_free ps i = Some j -> (i <= j < i + length ps)%nat.
Proof.
  induction ps as [|p ps IH]; intros i j; cbn [find_free]; [discriminate|]. destruct (negb _); [intros [= <-]; cbn; lia|].
  intros H. apply IH in H. cbn [length]. lia.
Qed.

(** Histories: poll times do not go back, datagrams are bytes. *)
Definition op_ok (now : Z) (o : op) : Prop :=
  match o with OPoll t => now <= t < 18446744073709551616 | ORecv b _ _ => Forall byte b | _ => True end.
Definition op_now (now : Z) (o : op) : Z := match o with OPoll t => t | _ => now end.
Fixpoint hist_ok (now : Z) (ops : list (op * list (list Z))) : Prop :=
  match ops with [] => True | (o, _) :: l => op_ok now o /\ hist_ok (op_now now o) l end.

Lemma step_ok d o r : dev_wf d -> op_ok (g_now (fst d)) o ->
  sok d (step C d o r) /\ g_now (fst (fst (step C d o r))) = op_now (g_now (fst d)) o.
Proof.
  intros W HO. unfold step. set (d0 := (up_rng (fst d) r, snd d)).
  assert (W0 : dev_wf d0) by exact W. assert (V0 : forall i s, gview d0 i s = gview d i s) by reflexivity.
  change (g_now (fst d)) with (g_now (fst d0)) in *.
  destruct o as [priv|pub psk ip port ka|i ip cidr|pkt|now|b ip port]; cbn [op_ok op_now] in *.
  - split; [|unfold set_private_key; destruct (c_pub C priv); reflexivity].
    apply sok_pre with (d0 := d0); [exact V0|]. unfold set_private_key. destruct (c_pub C priv) as [pb|]; [|apply sok_refl_g, W0].
    destruct W0 as (L & F).
    assert (MW : forall q, peer_wf q -> peer_wf (rekey_peer C priv q)).
    { intros q []. unfold rekey_peer. destruct (negb _); [constructor; assumption|].
      constructor; cbn [up_hs up_stg up_kps p_kps p_arr p_cnt]; [apply kps_zero_wf|reflexivity|lia]. }
    split; cbn [fst snd].
    + split; cbn [snd]; [rewrite map_length; exact L|]. apply Forall_forall. intros x I. apply in_map_iff in I.
      destruct I as (q & <- & I). apply MW. eapply Forall_forall; [exact F|exact I].
    + apply zero_all_steps with (n := 8%nat) (f := fun i => nth i (snd d0) peer_zero).
      * intros i _. apply nth_wf. split; assumption.
      * reflexivity.
      * intros i Hi. unfold gview. cbn [snd]. rewrite (nth_indep _ peer_zero (rekey_peer C priv peer_zero)) by (rewrite map_length; lia).
        rewrite map_nth. unfold rekey_peer. destruct (negb _); [left; reflexivity|right; reflexivity].
      * intros i Hi s. unfold gview. cbn [snd]. rewrite !nth_overflow by (rewrite ?map_length; lia). reflexivity.
  - split; [|unfold add_peer; destruct (find_free (snd d0) 0); reflexivity].
    apply sok_pre with (d0 := d0); [exact V0|]. unfold add_peer. destruct (find_free (snd d0) 0) as [i|] eqn:EF; [|apply sok_refl, W0].
    apply find_free_bound in EF. pose proof W0 as (L & _).
    assert (WP : peer_wf (new_peer C (fst d0) pub psk ip port ka)). { constructor; cbn; [apply kps_zero_wf|reflexivity|lia]. }
    split; cbn [fst snd]; [exact (lset_wf (fst d0) (snd d0) i _ W0 WP)|].
    destruct (gview_lset (fst d0) (snd d0) i (new_peer C (fst d0) pub psk ip port ka) ltac:(lia)) as (G1 & G2).
    eapply gsteps_peer with (i := i) (v' := pview (new_peer C (fst d0) pub psk ip port ka)).
    + apply (kps_zero_steps (Z.of_nat i) (g_now (fst d0)) _ (pw_kps _ (nth_wf d0 i W0))).

    + reflexivity.
    + exact G1.
    + exact G2.
  - split; [|unfold add_allowed; destruct (_ || _); [reflexivity|]; destruct (negb _); reflexivity].
    apply sok_pre with (d0 := d0); [exact V0|]. unfold add_allowed. destruct (_ || _); [apply sok_refl, W0|]. destruct (negb _); [apply sok_refl, W0|].
    apply sok_refl_g, W0.
  - unfold output. destruct (wolfguard_output _ _ pkt) as [i|] eqn:EO; [|split; [apply (sok_pre d d0); [exact V0|apply sok_refl, W0]|reflexivity]].
    unfold wolfguard_output in EO. destruct (zlen pkt <? 20); [discriminate|]. destruct (negb _); [discriminate|]. cbn zeta in EO.
    destruct ((aips_lookup (g_aips (fst d0)) (load_le32 (skipn 16 pkt)) <? 0) || (8 <=? aips_lookup (g_aips (fst d0)) (load_le32 (skipn 16 pkt)))) eqn:EB; [discriminate|].
    destruct (negb _); [discriminate|]. apply orb_false_iff in EB. destruct EB as (EB1 & EB2). assert (EI : aips_lookup (g_aips (fst d0)) (load_le32 (skipn 16 pkt)) = i) by congruence.
    rewrite EI in EB1, EB2. assert (0 <= i < 8) by lia. clear EO EB1 EB2 EI.
    destruct (on_peer_ok d0 (Z.to_nat i) (packet_send C i pkt) W0 ltac:(lia)) as (A & (EN & _)).
    { rewrite Z2Nat.id by lia. apply packet_send_good. }
    destruct (on_peer d0 (Z.to_nat i) (packet_send C i pkt)) as [d' e]. cbn [fst snd] in *. split; [|exact EN].
    destruct A as (A1 & A2). split; [exact A1|]. cbn [fst snd] in *.
    change (EOut i pkt :: e) with ([EOut i pkt] ++ e). eapply gsteps_app; [|exact A2].
    apply gsteps_none; [repeat constructor|exact V0].
  - unfold poll. set (d1 := (up_poll (fst d0) (MAX_PEERS <=? g_hpc (fst d0)) now, snd d0)).
    destruct (tick_all_ok 8 d1 0 W0 ltac:(lia)) as (A & (EN & _)). split; [|exact EN].
    apply sok_pre with (d0 := d1); [reflexivity|exact A].
  - unfold packet_receive. destruct (zlen b <? 4); [split; [apply (sok_pre d d0); [exact V0|apply sok_refl, W0]|reflexivity]|]. cbn zeta.
    destruct (_ =? 1); [|destruct (_ =? 2); [|destruct (_ =? 3); [|destruct (_ =? 4)]]].
    + destruct (handle_initiation_ok d0 b ip port W0) as (A & B). split; [exact (sok_pre d d0 _ V0 A)|exact B].
    + destruct (handle_response_ok d0 b ip port W0) as (A & B). split; [exact (sok_pre d d0 _ V0 A)|exact B].
    + destruct (handle_cookie_ok d0 b W0) as (A & B). split; [exact (sok_pre d d0 _ V0 A)|exact B].
    + destruct (handle_data_ok d0 b ip port W0 HO) as (A & B). split; [exact (sok_pre d d0 _ V0 A)|exact B].
    + split; [apply (sok_pre d d0); [exact V0|apply sok_refl, W0]|reflexivity].
Qed.

Lemma dev_init_wf : dev_wf dev_init.
Proof. split; [reflexivity|]. cbn [dev_init snd]. repeat constructor; cbn; auto; lia. Qed.

End Run.
