(** Invariants of the wolfGuard device (WgDevice): the shape of the key slots and
    of the staging area, and every change of a key slot as one of six elementary
    changes, each with the event it belongs to. *)
From Verif Require Import Base Arp WgAllowedIps WgCounter WgDevice.

(** ** Lists *)
Lemma lset_length {A} (l : list A) i v : length (lset l i v) = length l.
Proof.
  unfold lset. revert i. induction l as [|a l IH]; intros [|i]; try reflexivity.
  - cbn [firstn skipn]. cbn. f_equal. apply IH.
Qed.
Lemma nth_lset {A} (l : list A) i v j d : nth j (lset l i v) d =
  if Nat.eqb j i && Nat.ltb i (length l) then v else nth j l d.
Proof.
  unfold lset. revert i j. induction l as [|a l IH]; intros i j.
  - rewrite firstn_nil, skipn_nil. cbn. rewrite andb_false_r. reflexivity.
  - destruct i as [|i], j as [|j]; try reflexivity.
    cbn [firstn skipn app nth length]. rewrite IH. reflexivity.
Qed.
Lemma nth_lset_eq {A} (l : list A) i v d : (i < length l)%nat -> nth i (lset l i v) d = v.
Proof. intros H. rewrite nth_lset, Nat.eqb_refl. apply Nat.ltb_lt in H. rewrite H. reflexivity. Qed.
Lemma nth_lset_ne {A} (l : list A) i v j d : j <> i -> nth j (lset l i v) d = nth j l d.
Proof. intros H. rewrite nth_lset. apply Nat.eqb_neq in H. rewrite H. reflexivity. Qed.
Lemma lset_same {A} (l : list A) i d : lset l i (nth i l d) = l.
Proof.
  unfold lset. revert i. induction l as [|a l IH]; intros [|i]; try reflexivity. cbn. f_equal. apply IH.
Qed.
Lemma lset_lset {A} (l : list A) i v w : lset (lset l i v) i w = lset l i w.
Proof.
  unfold lset. revert i. induction l as [|a l IH]; intros [|i]; try reflexivity. cbn. f_equal. apply IH.
Qed.

(** ** Elementary changes of the key slots of peer [i] *)
Definition view := nat -> kp.
Definition upd1 (V V' : view) (s : nat) (k : kp) : Prop := V' s = k /\ forall t, t <> s -> V' t = V t.
Definition neutral (e : ev) : Prop :=
  match e with EUdp _ _ _ | EInj _ _ | EInit _ _ _ | EHello _ _ _ | EFail _ | EOut _ _ => True | _ => False end.

Inductive kstep (i now : Z) : view -> list ev -> view -> Prop :=
| K_use V V' s pt : k_svalid (V s) = true -> k_sctr (V s) < WG_REJECT_AFTER_MESSAGES ->
    (pt <> [] -> k_sctr (V s) < REKEY_AFTER_MESSAGES) ->
    u64 (now - k_sbirth (V s)) < REJECT_AFTER_MS ->
    upd1 V V' s (kp_ctr (V s) (u64 (k_sctr (V s) + 1))) ->
    kstep i now V [EEnc i (k_skey (V s)) (k_sctr (V s)) pt now] V'
| K_inv V V' s : upd1 V V' s (kp_inv (V s)) -> kstep i now V [] V'
| K_zero V V' s : upd1 V V' s kp_zero -> kstep i now V [] V'
| K_new V V' s sk rk li ri ini : upd1 V V' s (mkKp sk now true rk now true 0 wgrx_init li ri ini) ->
    kstep i now V [ENew i sk rk now] V'
| K_drop V V' s c : k_rvalid (V s) = true -> 0 <= c < 18446744073709551616 ->
    snd (wg_counter_validate (k_rx (V s)) c) = false ->
    upd1 V V' s (kp_rx (V s) (fst (wg_counter_validate (k_rx (V s)) c))) -> kstep i now V [] V'
| K_acc V V' s c pt : k_rvalid (V s) = true -> 0 <= c < 18446744073709551616 ->
    u64 (now - k_rbirth (V s)) < REJECT_AFTER_MS ->
    snd (wg_counter_validate (k_rx (V s)) c) = true ->
    upd1 V V' s (kp_rx (V s) (fst (wg_counter_validate (k_rx (V s)) c))) ->
    kstep i now V [EAcc i (k_rkey (V s)) c pt now] V'
| K_none V V' e : neutral e -> (forall s, V' s = V s) -> kstep i now V [e] V'.

Inductive ksteps (i now : Z) : view -> list ev -> view -> Prop :=
| KS_refl V V' : (forall s, V' s = V s) -> ksteps i now V [] V'
| KS_cons V V1 V2 e1 e2 : kstep i now V e1 V1 -> ksteps i now V1 e2 V2 -> ksteps i now V (e1 ++ e2) V2.

Lemma upd1_ext V V' W W' s k : (forall t, W t = V t) -> (forall t, W' t = V' t) -> upd1 V V' s k -> upd1 W W' s k.
Proof. intros H1 H2 (A & B). split; [rewrite H2; exact A|]. intros t N. rewrite H2, H1. apply B, N. Qed.

Lemma kstep_ext i now V e V' W : (forall t, W t = V t) -> kstep i now V e V' -> kstep i now W e V'.
Proof.
  intros H K. destruct K.
  - rewrite <- (H s) in *. eapply K_use; try eassumption. eapply upd1_ext; [exact H|reflexivity|eassumption].
  - rewrite <- (H s) in *. eapply K_inv. eapply upd1_ext; [exact H|reflexivity|eassumption].
  - eapply K_zero. eapply upd1_ext; [exact H|reflexivity|eassumption].
  - eapply K_new. eapply upd1_ext; [exact H|reflexivity|eassumption].
  - rewrite <- (H s) in *. eapply K_drop; try eassumption. eapply upd1_ext; [exact H|reflexivity|eassumption].
  - rewrite <- (H s) in *. eapply K_acc; try eassumption. eapply upd1_ext; [exact H|reflexivity|eassumption].
  - apply K_none; [assumption|]. intros s. rewrite H. auto.
Qed.
Lemma ksteps_ext i now V e V' W : (forall t, W t = V t) -> ksteps i now V e V' -> ksteps i now W e V'.
Proof.
  intros H K. destruct K.
  - apply KS_refl. intros s. rewrite H. auto.
  - eapply KS_cons; [eapply kstep_ext; eassumption|assumption].
Qed.
Lemma ksteps_app i now V e V1 : ksteps i now V e V1 -> forall e' V2, ksteps i now V1 e' V2 -> ksteps i now V (e ++ e') V2.
Proof.
  induction 1 as [V V' H|V V1 V2 e1 e2 K KS IH]; intros e' W KW.
  - cbn. eapply ksteps_ext; [|exact KW]. intros t. symmetry. apply H.
  - rewrite <- app_assoc. eapply KS_cons; [exact K|]. apply IH, KW.
Qed.
Lemma ksteps_one i now V e V' : kstep i now V e V' -> ksteps i now V e V'.
Proof. intros H. rewrite <- (app_nil_r e). eapply KS_cons; [exact H|]. apply KS_refl. reflexivity. Qed.
Lemma ksteps_none i now V e V' : Forall neutral e -> (forall s, V' s = V s) -> ksteps i now V e V'.
Proof.
  intros HN HV. induction HN as [|x l H HN IH].
  - apply KS_refl, HV.
  - change (x :: l) with ([x] ++ l). eapply KS_cons; [apply K_none with (V' := V); [exact H|reflexivity]|exact IH].
Qed.

(** ** Well-formed peers *)
Definition slot_lt (o : option nat) : Prop := match o with Some s => (s < 3)%nat | None => True end.
Definition oneq (a b : option nat) : Prop := match a, b with Some x, Some y => x <> y | _, _ => True end.
Record kps_wf (k : kps) : Prop := {
  kw_len : length (s_slots k) = 3%nat;
  kw_cur : slot_lt (s_cur k); kw_prev : slot_lt (s_prev k); kw_next : slot_lt (s_next k);
  kw_cp : oneq (s_cur k) (s_prev k); kw_cn : oneq (s_cur k) (s_next k); kw_pn : oneq (s_prev k) (s_next k)
}.
Record peer_wf (p : peer) : Prop := {
  pw_kps : kps_wf (p_kps p); pw_arr : length (p_arr p) = 16%nat; pw_cnt : 0 <= p_cnt p <= 16
}.

Lemma kps_zero_wf : kps_wf kps_zero.
Proof. constructor; cbn; auto. Qed.
Lemma up_slot_wf k s v : kps_wf k -> kps_wf (up_slot k s v).
Proof. intros []. constructor; cbn [up_slot s_slots s_cur s_prev s_next]; try assumption. rewrite lset_length. assumption. Qed.

Definition pview (p : peer) : view := slot (p_kps p).

(** The parts of the device an action on a peer leaves alone. *)
Definition gsame (g g' : gdev) : Prop :=
  g_now g' = g_now g /\ g_priv g' = g_priv g /\ g_pub g' = g_pub g /\ g_aips g' = g_aips g /\
  g_chk g' = g_chk g /\ g_load g' = g_load g /\ g_hpc g' = g_hpc g.
Lemma gsame_refl g : gsame g g.
Proof. unfold gsame; tauto. Qed.
Lemma gsame_trans a b c : gsame a b -> gsame b c -> gsame a c.
Proof. unfold gsame. intros (A1&A2&A3&A4&A5&A6&A7) (B1&B2&B3&B4&B5&B6&B7). repeat split; congruence. Qed.
Lemma gsame_rng g r : gsame g (up_rng g r).
Proof. unfold gsame; cbn; tauto. Qed.

(** What every action on peer [i] does to it, its keys and the device. *)
Definition aok (i : Z) (g : gdev) (p : peer) (r : gdev * peer * list ev) : Prop :=
  let '(g', p', e) := r in
  gsame g g' /\ peer_wf p' /\ p_active p' = p_active p /\ p_pub p' = p_pub p /\
  ksteps i (g_now g) (pview p) e (pview p').
Definition good (i : Z) (a : act) : Prop := forall g p, peer_wf p -> aok i g p (a g p).

Lemma aok_seq i a b g p : (aok i g p (a g p)) -> good i b -> aok i g p (seq a b g p).
Proof.
  unfold seq. intros HA HB. destruct (a g p) as [[g1 p1] e1]. destruct HA as (A1 & A2 & A3 & A4 & A5).
  specialize (HB g1 p1 A2). destruct (b g1 p1) as [[g2 p2] e2]. destruct HB as (B1 & B2 & B3 & B4 & B5).
  split; [eapply gsame_trans; eassumption|]. split; [assumption|]. split; [congruence|]. split; [congruence|].
  eapply ksteps_app; [exact A5|]. destruct A1 as (E & _). rewrite E in B5. exact B5.
Qed.
Lemma good_seq i a b : good i a -> good i b -> good i (seq a b).
Proof. intros HA HB g p W. apply aok_seq; [apply HA, W|exact HB]. Qed.

(** An action that leaves the keys alone. *)
Lemma aok_quiet i g p g' p' e : gsame g g' -> peer_wf p' -> p_active p' = p_active p -> p_pub p' = p_pub p ->
  Forall neutral e -> p_kps p' = p_kps p -> aok i g p (g', p', e).
Proof.
  intros H1 H2 H3 H4 H5 H6. split; [exact H1|]. split; [exact H2|]. split; [exact H3|]. split; [exact H4|].
  apply ksteps_none; [exact H5|]. intros s. unfold pview. rewrite H6. reflexivity.
Qed.

Section Good.
Context (C : crypto).

Lemma wf_fields p p' : peer_wf p -> p_kps p' = p_kps p -> p_arr p' = p_arr p -> p_cnt p' = p_cnt p -> peer_wf p'.
Proof. intros [] E1 E2 E3. constructor; congruence. Qed.

Lemma dh_generate_same g g1 r : dh_generate C g = (g1, r) -> gsame g g1.
Proof. unfold dh_generate. destruct (g_rng g) as [|b r']; intros [= <- _]; [apply gsame_refl|apply gsame_rng]. Qed.
Lemma new_index_same g g1 v : new_index g = (g1, v) -> gsame g g1.
Proof. unfold new_index. destruct (new_index_l (g_rng g)) as [r x]. intros [= <- _]. apply gsame_rng. Qed.

Ltac crush_same :=
  repeat match goal with
  | H : dh_generate _ _ = (_, _) |- _ => apply dh_generate_same in H
  | H : new_index _ = (_, _) |- _ => apply new_index_same in H
  end.

Lemma create_initiation_same g h g1 h1 m : create_initiation C g h = (g1, h1, m) -> gsame g g1.
Proof.
  unfold create_initiation. destruct (dh_generate C g) as [ga [[ep eb]|]] eqn:E1; [|intros [= <- _ _]; crush_same; assumption].
  destruct (c_dh C ep (h_rstatic h)) as [dh|]; [|intros [= <- _ _]; crush_same; assumption].
  destruct (kdf2 C (kdf1 C _ eb) dh) as [ck2 key]. destruct (c_enc C key 0 (g_pub g) _) as [es|]; [|intros [= <- _ _]; crush_same; assumption].
  destruct (kdf2 C ck2 (h_ss h)) as [ck3 key2]. destruct (c_enc C key2 0 _ _) as [et|]; [|intros [= <- _ _]; crush_same; assumption].
  destruct (new_index ga) as [gb idx] eqn:E2. crush_same.
  destruct (idx =? 0); intros [= <- _ _]; eapply gsame_trans; eassumption.
Qed.
Lemma create_response_same g h g1 h1 m : create_response C g h = (g1, h1, m) -> gsame g g1.
Proof.
  unfold create_response. destruct (negb _); [intros [= <- _ _]; apply gsame_refl|].
  destruct (dh_generate C g) as [ga [[ep eb]|]] eqn:E1; [|intros [= <- _ _]; crush_same; assumption].
  destruct (c_dh C ep (h_reph h)) as [d1|]; [|intros [= <- _ _]; crush_same; assumption].
  destruct (c_dh C ep (h_rstatic h)) as [d2|]; [|intros [= <- _ _]; crush_same; assumption].
  destruct (kdf3 C _ _) as [[ck4 tau] key]. destruct (c_enc C key 0 _ _) as [ee|]; [|intros [= <- _ _]; crush_same; assumption].
  destruct (new_index ga) as [gb idx] eqn:E2. crush_same.
  destruct (idx =? 0); intros [= <- _ _]; eapply gsame_trans; eassumption.
Qed.

Lemma initiate_good i : good i (initiate C i).
Proof.
  intros g p W. unfold initiate. destruct (create_initiation C g (p_hs p)) as [[g1 h1] [m|]] eqn:E.
  - destruct (add_macs C (p_cookie p) m (g_now g1)) as [c' full]. apply create_initiation_same in E.
    apply aok_quiet; try reflexivity; [exact E| |repeat constructor]. eapply wf_fields; [exact W|reflexivity..].
  - apply create_initiation_same in E. apply aok_quiet; try reflexivity; [exact E| |repeat constructor].
    eapply wf_fields; [exact W|reflexivity..].
Qed.
Lemma skip_good i : good i skip.
Proof. intros g p W. apply aok_quiet; try reflexivity; [apply gsame_refl|exact W|constructor]. Qed.
Lemma reset_good i : good i (reset_handshake C).
Proof. intros g p W. apply aok_quiet; try reflexivity; [apply gsame_refl| |constructor]. eapply wf_fields; [exact W|reflexivity..]. Qed.
Lemma send_initiation_good i : good i (send_initiation C i).
Proof. apply good_seq; [apply reset_good|apply initiate_good]. Qed.

Lemma stage_facts p pkt : peer_wf p -> peer_wf (stage p pkt) /\ p_kps (stage p pkt) = p_kps p /\
  p_active (stage p pkt) = p_active p /\ p_pub (stage p pkt) = p_pub p.
Proof.
  intros []. unfold stage, STAGED. destruct (Z.leb_spec 16 (p_cnt p)); [split; [constructor; assumption|tauto]|].
  split; [|cbn; tauto]. constructor; cbn [up_stg p_kps p_arr p_cnt]; [assumption|rewrite lset_length; assumption|lia].
Qed.

Lemma aok_pre i g p p0 r : p_kps p = p_kps p0 -> p_active p = p_active p0 -> p_pub p = p_pub p0 -> aok i g p r -> aok i g p0 r.
Proof.
  intros E1 E2 E3. destruct r as [[g' p'] e]. intros (H1 & H2 & H3 & H4 & H5).
  split; [exact H1|]. split; [exact H2|]. split; [congruence|]. split; [congruence|].
  unfold pview in *. rewrite E1 in H5. exact H5.
Qed.

Lemma slot_up k s v : (s < length (s_slots k))%nat -> upd1 (slot k) (slot (up_slot k s v)) s v.
Proof.
  intros H. split; unfold slot; cbn [up_slot s_slots]; [apply nth_lset_eq, H|]. intros t N. apply nth_lset_ne, N.
Qed.

Lemma pad_nonempty pkt : pkt <> [] -> pad pkt <> [].
Proof. destruct pkt; [congruence|]. discriminate. Qed.

Lemma packet_send_good i pkt : good i (packet_send C i pkt).
Proof.
  intros g p W. unfold packet_send.
  assert (NS : aok i g p (let p1 := stage p pkt in if hs_eqb (h_state (p_hs p1)) Zeroed then initiate C i g p1 else (g, p1, []))).
  { destruct (stage_facts p pkt W) as (S1 & S2 & S3 & S4). cbn zeta.
    destruct (hs_eqb _ _).
    - eapply aok_pre; [exact S2|exact S3|exact S4|]. apply initiate_good, S1.
    - apply aok_quiet; try assumption; [apply gsame_refl|constructor]. }
  destruct (s_cur (p_kps p)) as [s|] eqn:ES; [|exact NS]. cbn zeta.
  destruct (k_svalid (slot (p_kps p) s)) eqn:SV; cbn [negb]; [|exact NS].
  pose proof (pw_kps _ W) as KW. assert (SL : (s < length (s_slots (p_kps p)))%nat).
  { rewrite (kw_len _ KW). pose proof (kw_cur _ KW) as HC. rewrite ES in HC. exact HC. }
  destruct (Z.leb_spec REKEY_AFTER_MESSAGES (k_sctr (slot (p_kps p) s))) as [LM|LM];
    [|destruct (Z.leb_spec REJECT_AFTER_MS (u64 (g_now g - k_sbirth (slot (p_kps p) s)))) as [LA|LA]]; cbn [orb].
  - set (p1 := up_kps p (up_slot (p_kps p) s (kp_inv (slot (p_kps p) s)))).
    assert (W1 : peer_wf p1). { destruct W. constructor; cbn [p1 up_kps p_kps p_arr p_cnt]; [apply up_slot_wf|..]; assumption. }
    destruct (stage_facts p1 pkt W1) as (S1 & S2 & S3 & S4).
    split; [apply gsame_refl|]. split; [exact S1|]. split; [exact S3|]. split; [exact S4|].
    apply ksteps_one. eapply K_inv. unfold pview. rewrite S2. cbn [p1 up_kps p_kps]. apply slot_up, SL.
  - set (p1 := up_kps p (up_slot (p_kps p) s (kp_inv (slot (p_kps p) s)))).
    assert (W1 : peer_wf p1). { destruct W. constructor; cbn [p1 up_kps p_kps p_arr p_cnt]; [apply up_slot_wf|..]; assumption. }
    destruct (stage_facts p1 pkt W1) as (S1 & S2 & S3 & S4).
    split; [apply gsame_refl|]. split; [exact S1|]. split; [exact S3|]. split; [exact S4|].
    apply ksteps_one. eapply K_inv. unfold pview. rewrite S2. cbn [p1 up_kps p_kps]. apply slot_up, SL.
  - destruct (LINK_MTU <? pad_len (zlen pkt)); [apply aok_quiet; try reflexivity; [apply gsame_refl|exact W|constructor]|].
    destruct (c_enc C _ _ _ _) as [ct|]; [|apply aok_quiet; try reflexivity; [apply gsame_refl|exact W|constructor]].
    set (k := slot (p_kps p) s) in *. set (c' := u64 (k_sctr k + 1)).
    set (p2 := up_tsent _ _ _).
    assert (W2 : peer_wf p2). { destruct W. constructor; cbn [p2 up_tsent up_kps p_kps p_arr p_cnt]; [apply up_slot_wf|..]; assumption. }
    set (e := [EEnc i (k_skey k) (k_sctr k) (pad pkt) (g_now g); EUdp (p_ip p) (p_port p) (data_header (k_ridx k) (k_sctr k) ++ ct)]).
    assert (A : aok i g p (g, p2, e)).
    { split; [apply gsame_refl|]. split; [exact W2|]. split; [reflexivity|]. split; [reflexivity|].
      unfold e. change [EEnc i (k_skey k) (k_sctr k) (pad pkt) (g_now g); EUdp (p_ip p) (p_port p) (data_header (k_ridx k) (k_sctr k) ++ ct)]
        with ([EEnc i (k_skey k) (k_sctr k) (pad pkt) (g_now g)] ++ [EUdp (p_ip p) (p_port p) (data_header (k_ridx k) (k_sctr k) ++ ct)]).
      eapply KS_cons; [|apply ksteps_none with (V' := pview p2); [repeat constructor|reflexivity]].
      change (k_skey k) with (k_skey (pview p s)). change (k_sctr k) with (k_sctr (pview p s)).
      apply K_use; [exact SV|unfold pview; fold k; unfold REKEY_AFTER_MESSAGES, WG_REJECT_AFTER_MESSAGES, WG_WINDOW in *; lia|intros _; exact LM|exact LA|].
      unfold pview. cbn [p2 up_tsent up_kps p_kps]. apply slot_up, SL. }
    destruct (_ && k_init k); [|exact A].
    pose proof (initiate_good i g p2 W2) as B. destruct (initiate C i g p2) as [[g3 p3] e3].
    destruct A as (_ & _ & A3 & A4 & A5). destruct B as (B1 & B2 & B3 & B4 & B5).
    split; [exact B1|]. split; [exact B2|]. split; [congruence|]. split; [congruence|]. eapply ksteps_app; eassumption.
Qed.

Lemma staged_loop_good i n : forall j, good i (staged_loop C i n j).
Proof.
  induction n as [|n IH]; intros j g p W; cbn [staged_loop].
  - apply skip_good, W.
  - cbn zeta. set (p0 := up_stg p (lset (p_arr p) j []) (p_cnt p)).
    assert (W0 : peer_wf p0). { destruct W. constructor; cbn [p0 up_stg p_kps p_arr p_cnt]; [assumption|rewrite lset_length; assumption|assumption]. }
    eapply aok_pre; [| | |apply aok_seq; [apply packet_send_good, W0|apply IH]]; reflexivity.
Qed.
Lemma send_staged_good i : good i (send_staged C i).
Proof.
  intros g p W. unfold send_staged. set (p0 := up_stg p (p_arr p) 0).
  assert (W0 : peer_wf p0). { destruct W. constructor; cbn [p0 up_stg p_kps p_arr p_cnt]; [assumption|assumption|lia]. }
  eapply aok_pre; [| | |apply staged_loop_good, W0]; reflexivity.
Qed.

Lemma keepalive_good i : good i (keepalive C i).
Proof.
  intros g p W. unfold keepalive. pose proof (skip_good i g p W) as SK. unfold skip in SK.
  destruct (s_cur (p_kps p)) as [s|] eqn:ES; [|exact SK]. cbn zeta.
  destruct (k_svalid (slot (p_kps p) s)) eqn:SV; cbn [negb]; [|exact SK].
  pose proof (pw_kps _ W) as KW. assert (SL : (s < length (s_slots (p_kps p)))%nat).
  { rewrite (kw_len _ KW). pose proof (kw_cur _ KW) as HC. rewrite ES in HC. exact HC. }
  destruct (Z.leb_spec WG_REJECT_AFTER_MESSAGES (k_sctr (slot (p_kps p) s))); [exact SK|].
  destruct (Z.leb_spec REJECT_AFTER_MS (u64 (g_now g - k_sbirth (slot (p_kps p) s)))); [exact SK|].
  destruct (c_enc C _ _ _ _) as [ct|]; [|exact SK]. set (k := slot (p_kps p) s) in *.
  split; [apply gsame_refl|]. split.
  { destruct W. constructor; cbn [up_kps p_kps p_arr p_cnt]; [apply up_slot_wf|..]; assumption. }
  split; [reflexivity|]. split; [reflexivity|].
  change [EEnc i (k_skey k) (k_sctr k) [] (g_now g); EUdp (p_ip p) (p_port p) (data_header (k_ridx k) (k_sctr k) ++ ct)]
    with ([EEnc i (k_skey k) (k_sctr k) [] (g_now g)] ++ [EUdp (p_ip p) (p_port p) (data_header (k_ridx k) (k_sctr k) ++ ct)]).
  eapply KS_cons; [|apply ksteps_none with (V := pview (up_kps p (up_slot (p_kps p) s (kp_ctr k (u64 (k_sctr k + 1)))))); [repeat constructor|reflexivity]].
  change (k_skey k) with (k_skey (pview p s)). change (EEnc i (k_skey (pview p s)) (k_sctr k)) with (EEnc i (k_skey (pview p s)) (k_sctr (pview p s))).
  apply K_use; [exact SV|assumption|congruence|assumption|]. unfold pview. cbn [up_kps p_kps]. apply slot_up, SL.
Qed.
Lemma first_keepalive_good i : good i (first_keepalive C i).
Proof.
  intros g p W. unfold first_keepalive. destruct (s_cur (p_kps p)); [|apply skip_good, W].
  destruct (_ =? 0); [apply keepalive_good, W|apply skip_good, W].
Qed.

Lemma drop_next_wf k : kps_wf k -> kps_wf (drop_next k).
Proof.
  intros W. unfold drop_next. destruct (s_next k) eqn:E; [|exact W]. destruct W.
  constructor; cbn [s_slots s_cur s_prev s_next]; try assumption; try exact I.
  - rewrite lset_length. assumption.
  - destruct (s_cur k); exact I.
  - destruct (s_prev k); exact I.
Qed.
Lemma free_slot_spec k : kps_wf k -> (free_slot k < 3)%nat /\ oneq (s_cur k) (Some (free_slot k)) /\ oneq (s_prev k) (Some (free_slot k)).
Proof.
  intros []. unfold free_slot, find, oeqb.
  destruct (s_cur k) as [a|], (s_prev k) as [b|]; cbn [slot_lt oneq] in *;
  repeat match goal with
  | x : nat |- _ => destruct x as [|[|[|x]]]; try lia
  end; cbn; auto with arith.
Qed.

Lemma begin_session_good i g p p1 e1 : peer_wf p -> begin_session C i g p = Some (p1, e1) -> aok i g p (g, p1, e1).
Proof.
  intros W. unfold begin_session. destruct (_ && _); [discriminate|]. cbn zeta.
  destruct (kdf2 C (h_ck (p_hs p)) []) as [t1 t2]. set (ini := hs_eqb _ ConsumedResp).
  pose proof (pw_kps _ W) as KW. pose proof (drop_next_wf _ KW) as KW1. set (k1 := drop_next (p_kps p)) in *.
  destruct (free_slot_spec _ KW1) as (F1 & F2 & F3). set (s := free_slot k1) in *.
  set (nk := mkKp _ _ _ _ _ _ _ _ _ _ _). intros [= <- <-].
  assert (KN : s_next k1 = None). { unfold k1, drop_next. destruct (s_next (p_kps p)) eqn:E; [reflexivity|exact E]. }
  set (k2 := if ini then mkKps (Some s) (s_cur k1) (s_next k1) (lset (s_slots k1) s nk)
                    else mkKps (s_cur k1) (s_prev k1) (Some s) (lset (s_slots k1) s nk)).
  assert (SL : s_slots k2 = lset (s_slots k1) s nk) by (unfold k2; destruct ini; reflexivity).
  assert (W2 : kps_wf k2).
  { destruct KW1. unfold k2. destruct ini; constructor; cbn [s_slots s_cur s_prev s_next]; try assumption;
      try (rewrite lset_length; assumption); rewrite ?KN; cbn [oneq slot_lt]; auto.
    destruct (s_cur k1); cbn [oneq] in *; auto. }
  split; [apply gsame_refl|]. split. { destruct W. constructor; cbn [up_kps up_hs p_kps p_arr p_cnt]; assumption. }
  split; [reflexivity|]. split; [reflexivity|]. unfold pview. cbn [up_kps up_hs p_kps]. fold k2.
  assert (ST : ksteps i (g_now g) (slot k1) [ENew i (if ini then t1 else t2) (if ini then t2 else t1) (g_now g)] (slot k2)).
  { apply ksteps_one. eapply K_new with (s := s). fold nk. split; unfold slot; rewrite SL.
    - apply nth_lset_eq. rewrite (kw_len _ KW1). exact F1.
    - intros t N. apply nth_lset_ne, N. }
  destruct (s_next (p_kps p)) as [n|] eqn:E.
  - change [ENew i (if ini then t1 else t2) (if ini then t2 else t1) (g_now g)]
      with ([] ++ [ENew i (if ini then t1 else t2) (if ini then t2 else t1) (g_now g)]).
    eapply KS_cons; [|exact ST]. eapply K_zero with (s := n). unfold k1, drop_next. rewrite E. split; unfold slot; cbn [s_slots].
    + apply nth_lset_eq. rewrite (kw_len _ KW). pose proof (kw_next _ KW) as HN. rewrite E in HN. exact HN.
    + intros t N. apply nth_lset_ne, N.
  - assert (k1 = p_kps p) as EK by (unfold k1, drop_next; rewrite E; reflexivity). rewrite <- EK. exact ST.
Qed.

Lemma finish_good i x : good i x -> good i (finish C i x).
Proof.
  intros HX g p W. unfold finish. destruct (begin_session C i g p) as [[p1 e1]|] eqn:E; [|apply skip_good, W].
  pose proof (begin_session_good i g p p1 e1 W E) as (_ & W1 & A3 & A4 & A5).
  assert (W2 : peer_wf (up_tdone p1 (g_now g))) by (eapply wf_fields; [exact W1|reflexivity..]).
  pose proof (good_seq i _ _ (send_staged_good i) HX g _ W2) as B.
  destruct (seq (send_staged C i) x g (up_tdone p1 (g_now g))) as [[g2 p2] e2].
  destruct B as (B1 & B2 & B3 & B4 & B5).
  split; [exact B1|]. split; [exact B2|]. split; [rewrite B3; exact A3|]. split; [rewrite B4; exact A4|].
  eapply ksteps_app; [exact A5|]. exact B5.
Qed.

Lemma answer_good i ip port : good i (answer C i ip port).
Proof.
  intros g p W. unfold answer. cbn zeta. set (p0 := up_ep p ip port).
  assert (W0 : peer_wf p0) by (eapply wf_fields; [exact W|reflexivity..]).
  destruct (create_response C g (p_hs p0)) as [[g1 h1] [m|]] eqn:E; apply create_response_same in E.
  - destruct (add_macs C (p_cookie p0) m (g_now g1)) as [c' full].
    assert (W1 : peer_wf (up_cookie (up_hs p0 h1) c')) by (eapply wf_fields; [exact W0|reflexivity..]).
    pose proof (finish_good i skip (skip_good i) g1 _ W1) as B.
    destruct (finish C i skip g1 (up_cookie (up_hs p0 h1) c')) as [[g2 p2] e2]. destruct B as (B1 & B2 & B3 & B4 & B5).
    split; [eapply gsame_trans; eassumption|]. split; [exact B2|]. split; [exact B3|]. split; [exact B4|].
    change (EUdp ip port full :: e2) with ([EUdp ip port full] ++ e2).
    eapply KS_cons; [apply K_none with (V' := pview p); [exact I|reflexivity]|].
    destruct E as (EN & _). rewrite EN in B5. exact B5.
  - apply aok_quiet; try reflexivity; [exact E| |constructor]. eapply wf_fields; [exact W0|reflexivity..].
Qed.

Lemma jitter_good i : good i jitter.
Proof.
  intros g p W. unfold jitter. destruct (g_rng g) as [|b r]; apply aok_quiet; try reflexivity; try constructor;
    try apply gsame_refl; try apply gsame_rng; try (eapply wf_fields; [exact W|reflexivity..]); cbn; tauto.
Qed.

Lemma aok_post i g p r f : (forall q, p_kps (f q) = p_kps q /\ p_arr (f q) = p_arr q /\ p_cnt (f q) = p_cnt q /\
    p_active (f q) = p_active q /\ p_pub (f q) = p_pub q) ->
  aok i g p r -> aok i g p (let '(g1, p1, e) := r in (g1, f p1, e)).
Proof.
  intros HF. destruct r as [[g1 p1] e]. intros (H1 & H2 & H3 & H4 & H5). destruct (HF p1) as (F1 & F2 & F3 & F4 & F5).
  split; [exact H1|]. split; [eapply wf_fields; [exact H2|assumption..]|]. split; [congruence|]. split; [congruence|].
  unfold pview in *. rewrite F1. exact H5.
Qed.

Lemma tm_retransmit_good i : good i (tm_retransmit C i).
Proof.
  intros g p W. unfold tm_retransmit. destruct (_ || _); [apply skip_good, W|].
  destruct (MAX_ATTEMPTS <=? p_att p).
  - apply (aok_post i g p (reset_handshake C g p) (fun q => up_tinit q 0 0)); [intros q; cbn; tauto|apply reset_good, W].
  - destruct (_ <=? _); [apply send_initiation_good, W|apply skip_good, W].
Qed.
Lemma tm_passive_good i : good i (tm_passive C i).
Proof.
  intros g p W. unfold tm_passive. pose proof (skip_good i g p W) as SK. unfold skip in SK.
  destruct (s_cur (p_kps p)); [|exact SK]. destruct (negb _); [exact SK|]. destruct (_ || _); [exact SK|].
  destruct (_ && _); [exact SK|]. destruct (_ && _); [exact SK|].
  apply (aok_post i g p (keepalive C i g p) (fun q => up_tka q (g_now g))); [intros q; cbn; tauto|apply keepalive_good, W].
Qed.
Lemma tm_rekey_good i : good i (tm_rekey C i).
Proof.
  intros g p W. unfold tm_rekey. pose proof (skip_good i g p W) as SK. unfold skip in SK.
  destruct (s_cur (p_kps p)); [|exact SK]. cbn zeta. destruct (_ || _); [exact SK|]. destruct (_ <? _); [exact SK|].
  apply good_seq; [apply jitter_good|apply send_initiation_good|exact W].
Qed.
Lemma tm_stale_good i : good i (tm_stale C i).
Proof.
  intros g p W. unfold tm_stale. pose proof (skip_good i g p W) as SK. unfold skip in SK.
  destruct (s_cur (p_kps p)); [|exact SK]. destruct (_ || _); [exact SK|]. destruct (_ && _); [exact SK|]. destruct (_ && _); [exact SK|].
  apply good_seq; [apply jitter_good|apply send_initiation_good|exact W].
Qed.
Lemma kps_zero_steps i now k : kps_wf k -> ksteps i now (slot k) [] (slot kps_zero).
Proof.
  intros W. pose proof (kw_len _ W) as L.
  assert (Z0 : forall t, slot kps_zero t = kp_zero).
  { intros t. unfold slot, kps_zero; cbn [s_slots]. destruct t as [|[|[|[|t]]]]; reflexivity. }
  set (k0 := up_slot k 0 kp_zero). set (k1 := up_slot k0 1 kp_zero). set (k2 := up_slot k1 2 kp_zero).
  change (@nil ev) with (@nil ev ++ [] ++ [] ++ []).
  eapply KS_cons; [eapply K_zero with (s := 0%nat) (V' := slot k0); apply slot_up; rewrite L; lia|].
  eapply KS_cons; [eapply K_zero with (s := 1%nat) (V' := slot k1); apply slot_up; cbn [k0 up_slot s_slots]; rewrite lset_length, L; lia|].
  eapply KS_cons; [eapply K_zero with (s := 2%nat) (V' := slot k2); apply slot_up; cbn [k1 k0 up_slot s_slots]; rewrite !lset_length, L; lia|].
  apply KS_refl. intros t. rewrite Z0. unfold k2, k1, k0, slot. cbn [up_slot s_slots]. symmetry.
  destruct t as [|[|[|t]]].
  - rewrite !nth_lset_ne by lia. apply nth_lset_eq. lia.
  - rewrite nth_lset_ne by lia. apply nth_lset_eq. rewrite lset_length. lia.
  - apply nth_lset_eq. rewrite !lset_length. lia.
  - apply nth_overflow. rewrite !lset_length. lia.
Qed.
Lemma tm_zero_good i : good i (tm_zero C).
Proof.
  intros g p W. unfold tm_zero. pose proof (skip_good i g p W) as SK. unfold skip in SK.
  destruct (s_cur (p_kps p)); [|exact SK]. destruct (_ <? _); [exact SK|].
  unfold reset_handshake. split; [apply gsame_refl|]. split.
  { destruct W. constructor; cbn [up_hs up_kps p_kps p_arr p_cnt]; [apply kps_zero_wf|assumption..]. }
  split; [reflexivity|]. split; [reflexivity|]. unfold pview. cbn [up_hs up_kps p_kps]. apply kps_zero_steps, (pw_kps _ W).
Qed.
Lemma tm_persistent_good i : good i (tm_persistent C i).
Proof.
  intros g p W. unfold tm_persistent. pose proof (skip_good i g p W) as SK. unfold skip in SK.
  destruct (_ =? 0); [exact SK|]. destruct (s_cur (p_kps p)); [|exact SK]. destruct (negb _); [exact SK|]. destruct (_ && _); [exact SK|].
  apply (aok_post i g p (keepalive C i g p) (fun q => up_tka q (g_now g))); [intros q; cbn; tauto|apply keepalive_good, W].
Qed.
Lemma tick_good i : good i (tick C i).
Proof.
  intros g p W. unfold tick. destruct (negb _); [apply skip_good, W|].
  revert g p W. change (good i (seq (tm_retransmit C i) (seq (tm_passive C i) (seq (tm_rekey C i) (seq (tm_stale C i) (seq (tm_zero C) (tm_persistent C i))))))).
  repeat apply good_seq; [apply tm_retransmit_good|apply tm_passive_good|apply tm_rekey_good|apply tm_stale_good|apply tm_zero_good|apply tm_persistent_good].
Qed.

End Good.
