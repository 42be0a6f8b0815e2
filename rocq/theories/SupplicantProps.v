(** C34, C58, C59: the WPA supplicant. *)
From Verif Require Import Base ListUtil HttpUrl EapTls EapTlsProps Eapol EapolProps ForwardSpec ForwardProofs ForwardStep Supplicant SupplicantSpec SupplicantProofs SupplicantInv SupplicantHist SupplicantTrack.
Local Ltac Zify.zify_post_hook ::= idtac.

(** No sequence of calls, frames, TLS and SAE answers makes the supplicant access
    memory outside its buffers. *)
Theorem wpa_total : forall c os, crypto_ok c -> Forall sop_ok os -> exists t, srun c s_zero os = Some t.
Proof.
  intros c os CO HO. assert (G : forall s, SInv s -> exists t, srun c s os = Some t); [|apply G, s_zero_inv].
  induction HO as [|o os H1 H2 IH]; intros s SI; [exists []; reflexivity|]. cbn [srun]. destruct (sstep_ok c s o CO SI H1) as (s' & out & ok & -> & A & _). cbn [obind].
  destruct (IH s' A) as (t & ->). cbn [obind]. eauto.
Qed.
Print Assumptions wpa_total.

Lemma two_splits {A} (t1 : list A) x t2 : forall a1 m a2, t1 ++ x :: t2 = a1 ++ m :: a2 ->
  (exists z, t2 = z ++ m :: a2) \/ (x = m /\ t1 = a1 /\ t2 = a2) \/ (exists z, a2 = z ++ x :: t2).
Proof.
  induction t1 as [|y t1 IH]; intros [|b a1] m a2 E; cbn in E; injection E as E1 E2; subst; auto; [left; eauto|right; right; eauto|].
  destruct (IH a1 m a2 E2) as [H|[(-> & -> & ->)|H]]; auto.
Qed.

(** The step that installs a key, and the handshake it belongs to. *)
Lemma install_step c t1 en t2 b idx key : crypto_ok c -> trace c (t1 ++ en :: t2) -> installs en b idx key ->
  exists f now e a1 m1 a2 f1 sn p, t_op en = SRx f now e /\ epoch c t1 a1 m1 a2 f1 sn p /\ num (h_replay (x_h (current t1))) < counter f /\
    ((x_state (current t1) = M3Wait /\ exists gidx gtk, good_m3 c (x_f (t_after m1)) p f1 f gidx gtk /\ ((b = true /\ idx = 0 /\ key = p_tk p) \/ (b = false /\ idx = gidx /\ key = gtk))) \/
     (x_state (current t1) = Auth /\ b = false /\ good_group c (x_f (t_after m1)) p f idx key)).
Proof.
  intros CO HT (r & HI). pose proof (step_kind c t1 en t2 CO HT) as B. destruct (trace_prefix c t1 en t2 HT) as (HT1 & HO & ES).
  destruct en as [o out ok s']. cbn [t_op t_out t_ok t_after] in *.
  inversion B as [o0 s0 out0 QO QS|f now e sn p s0 out0 ST M1 RV SN PT OS F1 F2 F3 F4|o0 s0 sn F4|f now e gidx gkey s0 ins out0 ST M3 INS OS F4 F1 F2 F3 F5|f now e gidx gkey s0 ins out0 ST ST' G1 OS INS F1 F2 F3]; subst.
  - exfalso. exact (quiet_no_install out QO b idx key r HI).
  - exfalso. destruct HI as [HI|HI]; [discriminate|]. exact (quiet_no_install out0 OS b idx key r HI).
  - exfalso. destruct HI as [HI|[]]. discriminate.
  - destruct (epoch_inv c t1 CO HT1 (or_introl ST)) as (a1 & m1 & a2 & f1 & sn & p & EP). pose proof EP as (_ & _ & _ & _ & P1 & P2 & P3 & P4 & _).
    exists f, now, e, a1, m1, a2, f1, sn, p. split; [reflexivity|]. split; [exact EP|]. pose proof M3 as (_ & _ & _ & CT & _). split; [exact CT|]. left. split; [exact ST|].
    exists gidx, gkey. split; [eapply m3_good; eauto|]. apply in_app_or in HI. destruct HI as [HI|HI]; [|exfalso; exact (quiet_no_install out0 OS b idx key r HI)].
    rewrite P2 in INS. destruct INS as [-> |[(r' & ->)|(r' & ->)]]; cbn in HI; [contradiction| |].
    + destruct HI as [HI|[]]. injection HI as <- <- <- <-. auto.
    + destruct HI as [HI|[HI|[]]]; injection HI as <- <- <- <-; auto.
  - destruct (epoch_inv c t1 CO HT1 (or_intror ST)) as (a1 & m1 & a2 & f1 & sn & p & EP). pose proof EP as (_ & _ & _ & _ & P1 & P2 & P3 & P4 & _).
    exists f, now, e, a1, m1, a2, f1, sn, p. split; [reflexivity|]. split; [exact EP|]. pose proof G1 as (G1a & G1b & CT & G1d & G1e). split; [exact CT|]. right. split; [exact ST|].
    apply in_app_or in HI. destruct HI as [HI|HI]; [|exfalso; exact (quiet_no_install out0 OS b idx key r HI)].
    assert (K : b = false /\ idx = gidx /\ key = gkey). { destruct INS as [[[-> | ->] _]|[-> _]]; cbn in HI; [contradiction| |]; destruct HI as [HI|[]]; injection HI as <- <- <- _; auto. }
    destruct K as (-> & -> & ->). split; [reflexivity|]. split; [exact G1a|]. rewrite <- P1, <- P2. split; [exact G1b|]. split; [rewrite cmac_is; exact G1d|exact G1e].
Qed.

(** A pairwise key is handed to the driver only by a frame that is a valid message 3
    for the message 1 last answered: same nonce, larger counter, valid MIC under the
    key derived from the PMK with the nonce drawn then, encrypted key data confirming
    the advertised RSN element; the key is that session's TK, and no key was handed
    over since that message 1. *)
Theorem wpa_pairwise_authentic : forall c t1 en t2 idx key, crypto_ok c -> history c (t1 ++ en :: t2) -> installs en true idx key ->
  exists f now e a1 m1 a2 f1 sn p gidx gtk, t_op en = SRx f now e /\ t1 = a1 ++ m1 :: a2 /\ accepts_m1 c m1 f1 sn p /\
    Forall (fun x => ~ draws x /\ forall b i k, ~ installs x b i k) a2 /\ idx = 0 /\ key = p_tk p /\ good_m3 c (x_f (t_after m1)) p f1 f gidx gtk.
Proof.
  intros c t1 en t2 idx key CO HH HI. apply history_trace in HH. destruct (install_step c t1 en t2 true idx key CO HH HI) as (f & now & e & a1 & m1 & a2 & f1 & sn & p & E & EP & _ & [(ST & gidx & gtk & GM & K)|(_ & D & _)]); [|discriminate].
  destruct EP as (EQ & AC & ND & _ & _ & _ & _ & _ & _ & P6 & _). destruct K as [(_ & K1 & K2)|(K & _)]; [|discriminate].
  exists f, now, e, a1, m1, a2, f1, sn, p, gidx, gtk. split; [exact E|]. split; [exact EQ|]. split; [exact AC|]. split; [|auto].
  specialize (P6 ST). rewrite Forall_forall in *. intros x HX. split; [apply ND; exact HX|]. intros b i k (r & HR). exact (P6 x HX b i k r HR).
Qed.
Print Assumptions wpa_pairwise_authentic.

(** A group key is handed to the driver only by such a message 3, or by a valid group
    message 1 under the key of a handshake completed by a valid message 3; it is the
    key that message carries, and the message is newer than every message whose key
    the driver took since message 1. *)
Theorem wpa_group_authentic : forall c t1 en t2 idx key, crypto_ok c -> history c (t1 ++ en :: t2) -> installs en false idx key ->
  exists f now e a1 m1 a2 f1 sn p, t_op en = SRx f now e /\ t1 = a1 ++ m1 :: a2 /\ accepts_m1 c m1 f1 sn p /\ Forall (fun x => ~ draws x) a2 /\
    (forall x b i k, In x a2 -> installed x b i k -> exists fx nx ex, t_op x = SRx fx nx ex /\ counter fx < counter f) /\
    (good_m3 c (x_f (t_after m1)) p f1 f idx key \/
     (good_group c (x_f (t_after m1)) p f idx key /\ exists m3 f3 n3 e3 i3 g3, In m3 a2 /\ t_op m3 = SRx f3 n3 e3 /\ good_m3 c (x_f (t_after m1)) p f1 f3 i3 g3)).
Proof.
  intros c t1 en t2 idx key CO HH HI. apply history_trace in HH. destruct (install_step c t1 en t2 false idx key CO HH HI) as (f & now & e & a1 & m1 & a2 & f1 & sn & p & E & EP & CT & K).
  destruct EP as (EQ & AC & ND & _ & _ & _ & _ & _ & P5 & _ & P7). exists f, now, e, a1, m1, a2, f1, sn, p. split; [exact E|]. split; [exact EQ|]. split; [exact AC|]. split; [exact ND|]. split.
  { intros x b i k HX HK. destruct (P5 x b i k HX HK) as (fx & nx & ex & Q1 & Q2). exists fx, nx, ex. split; [exact Q1|lia]. }
  destruct K as [(ST & gidx & gtk & GM & [(K & _)|(_ & -> & ->)])|(ST & _ & GG)]; [discriminate|left; exact GM|right]. split; [exact GG|].
  destruct (P7 ST) as (m3 & f3 & n3 & e3 & i3 & g3 & Q1 & Q2 & _ & Q3). exists m3, f3, n3, e3, i3, g3. auto.
Qed.
Print Assumptions wpa_group_authentic.

(** Between any two handovers of a pairwise key a fresh nonce is drawn, whatever is
    replayed or retransmitted (no key reinstallation). *)
Theorem wpa_pairwise_once : forall c t l1 i k r l2 i' k' r' l3, crypto_ok c -> history c t ->
  flat_map t_out t = l1 ++ OInstall true i k r :: l2 ++ OInstall true i' k' r' :: l3 -> exists n, In (ODraw n) l2.
Proof.
  intros c t l1 i k r l2 i' k' r' l3 CO HH E. apply history_trace in HH. destruct (armed_inv c t CO HH) as (b & A & _). unfold events in A. rewrite E, armed_app in A.
  destruct (armed false l1) as [b1|] eqn:A1; [|discriminate]. eapply (armed_between _ b1); [rewrite A; discriminate|reflexivity].
Qed.
Print Assumptions wpa_pairwise_once.

(** Once the driver took a key from frame [fx], no frame whose counter is not larger
    makes it install anything before a new nonce is drawn: replayed frames install
    nothing. *)
Theorem wpa_no_replay : forall c t1 x t2 y t3 fx nx ex fy ny ey b i k b' i' k', crypto_ok c -> history c (t1 ++ x :: t2 ++ y :: t3) ->
  t_op x = SRx fx nx ex -> t_op y = SRx fy ny ey -> installed x b i k -> installs y b' i' k' -> (exists z, In z t2 /\ draws z) \/ counter fx < counter fy.
Proof.
  intros c t1 x t2 y t3 fx nx ex fy ny ey b i k b' i' k' CO HH OX OY IX IY. apply history_trace in HH. rewrite app_comm_cons, app_assoc in HH.
  destruct (install_step c (t1 ++ x :: t2) y t3 b' i' k' CO HH IY) as (f & now & e & a1 & m1 & a2 & f1 & sn & p & E & EP & CT & _).
  rewrite OY in E. injection E as <- <- <-. destruct EP as (EQ & AC & ND & _ & _ & _ & _ & _ & P5 & _).
  destruct (two_splits t1 x t2 a1 m1 a2 EQ) as [(z & ->)|[(-> & _)|(z & ->)]].
  - left. exists m1. split; [apply in_or_app; right; left; reflexivity|]. destruct AC as (_ & _ & D & _). exists sn. exact D.
  - exfalso. destruct AC as (_ & _ & _ & NI & _). exact (NI b i k true IX).
  - right. destruct (P5 x b i k) as (fx' & nx' & ex' & Q1 & Q2); [apply in_or_app; right; left; reflexivity|exact IX|]. rewrite OX in Q1. injection Q1 as <- <- <-. lia.
Qed.
Print Assumptions wpa_no_replay.

(** The authenticated state is reached only through a valid message 3 of the current
    handshake. *)
Theorem wpa_authenticated : forall c t, crypto_ok c -> history c t -> x_state (current t) = Auth ->
  exists a1 m1 a2 f1 sn p m3 f3 n3 e3 idx gtk, t = a1 ++ m1 :: a2 /\ accepts_m1 c m1 f1 sn p /\ Forall (fun x => ~ draws x) a2 /\
    In m3 a2 /\ t_op m3 = SRx f3 n3 e3 /\ good_m3 c (x_f (t_after m1)) p f1 f3 idx gtk.
Proof.
  intros c t CO HH ST. apply history_trace in HH. destruct (epoch_inv c t CO HH (or_intror ST)) as (a1 & m1 & a2 & f1 & sn & p & EQ & AC & ND & _ & _ & _ & _ & _ & _ & _ & P7).
  destruct (P7 ST) as (m3 & f3 & n3 & e3 & i3 & g3 & Q1 & Q2 & _ & Q3). exists a1, m1, a2, f1, sn, p, m3, f3, n3, e3, i3, g3. auto 10.
Qed.
Print Assumptions wpa_authenticated.

(** ** Honest runs complete *)
Lemma with_mic_msg info klen replay nn data mic : zlen replay = 8 -> zlen nn = 32 -> zlen mic = 16 -> with_mic (key_bytes info klen replay nn data) mic = key_msg info klen replay nn data mic.
Proof.
  intros HR HN HM. unfold with_mic. set (kb := key_bytes info klen replay nn data).
  set (pre := [2; 3; (95 + zlen data) / 256; (95 + zlen data) mod 256; 2; info / 256; info mod 256; klen / 256; klen mod 256] ++ replay ++ nn ++ repeat 0 32).
  set (post := [zlen data / 256; zlen data mod 256] ++ data).
  assert (E : kb = pre ++ repeat 0 16 ++ post). { unfold kb, key_bytes, pre, post. change (repeat 0 48) with (repeat 0 32 ++ repeat 0 16). rewrite <- !app_assoc. reflexivity. }
  assert (LP : zlen pre = 81) by (unfold pre; rewrite !zlen_app, HR, HN; reflexivity).
  assert (LQ : zlen kb = 97 + zlen post) by (rewrite E, !zlen_app, LP; change (zlen (repeat 0 16)) with 16; lia).
  replace (part kb 0 81) with pre. 2: { rewrite E. symmetry. apply (part_seg [] pre); [reflexivity|symmetry; exact LP]. }
  replace (part kb 97 (zlen kb - 97)) with post. 2: { rewrite LQ. replace (97 + zlen post - 97) with (zlen post) by lia. rewrite E. symmetry.
    replace (pre ++ repeat 0 16 ++ post) with ((pre ++ repeat 0 16) ++ post ++ []) by (rewrite app_nil_r, <- app_assoc; reflexivity). apply part_seg; [rewrite zlen_app, LP; reflexivity|reflexivity]. }
  unfold pre, post, key_msg. rewrite <- !app_assoc. reflexivity.
Qed.
Lemma zero_mic_msg info klen replay nn data : key_bytes info klen replay nn data = key_msg info klen replay nn data (repeat 0 16).
Proof. unfold key_bytes, key_msg. change (repeat 0 48) with (repeat 0 32 ++ repeat 0 16). rewrite <- !app_assoc. reflexivity. Qed.
Lemma send_exact c e s info klen replay nn data mic : crypto_ok c -> 0 <= info < 65536 -> 0 <= klen < 65536 -> zlen replay = 8 -> zlen nn = 32 -> zlen data <= 64 ->
  f_send (x_f s) = true -> e_send e = true -> cr_mic c (is_cmac s) (p_kck (h_ptk (x_h s))) (key_msg info klen replay nn data (repeat 0 16)) = Some mic ->
  send_key c e s info klen replay nn data = Some ([OSend (key_msg info klen replay nn data mic)], true).
Proof.
  intros CO HI HK HR HN HD FS ES MI. destruct (send_spec_key c e s info klen replay nn data CO HI HK HR HN HD) as (o & ok & -> & P). rewrite <- zero_mic_msg in MI.
  rewrite MI, FS in P. destruct P as [-> ->]. destruct CO as (CM & _). destruct (CM _ _ _ _ MI) as [LM _]. rewrite with_mic_msg by assumption. rewrite ES. reflexivity.
Qed.

Lemma m2_info_eq s : Z.lor (Z.lor (desc_ver s) 8) 256 = m2_info (f_mode (x_f s)).
Proof. unfold desc_ver, is_cmac, m2_info, ver, cmac_of. destruct (f_mode (x_f s)); reflexivity. Qed.
Lemma m4_info_eq s : Z.lor (Z.lor (Z.lor (desc_ver s) 8) 256) 512 = m4_info (f_mode (x_f s)).
Proof. unfold desc_ver, is_cmac, m4_info, ver, cmac_of. destruct (f_mode (x_f s)); reflexivity. Qed.
Lemma g2_info_eq s : Z.lor (Z.lor (desc_ver s) 256) 512 = g2_info (f_mode (x_f s)).
Proof. unfold desc_ver, is_cmac, g2_info, ver, cmac_of. destruct (f_mode (x_f s)); reflexivity. Qed.
Lemma rx_key_frame c e s f now : Forall byte f -> key_frame f -> right_version (f_mode (x_f s)) f -> 4 + word f 2 <= 355 -> exists k, key_fields f k /\ kv_frame_len k <= 355 /\
  supp_rx c e s f now =
  match x_state s with
  | M1Wait => do (s, o, ok) <- handle_m1 c e s k now; Some (if ok : bool then s else set_state s Failed, o, ok)
  | M3Wait => do m <- m1_retransmit c e s k now;
              match m with Some (s, o) => Some (s, o, true)
              | None => do (s, o, ok) <- handle_m3 c e s k (copy_of f k); Some (if ok : bool then s else set_state s Failed, o, ok) end
  | Auth => if Z.land (kv_info k) 8 =? 0 then handle_group_m1 c e s k (copy_of f k) else Some (s, [], false)
  | _ => Some (s, [], false)
  end.
Proof.
  intros HB KF RV L. pose proof KF as (F1 & _ & F3 & F4 & F5 & _). destruct (eapol_key_parse_exact f HB) as (r & E & P1 & _). destruct (P1 KF) as (k & -> & KS). pose proof KS as (K1 & _ & K3 & _).
  exists k. split; [exact KS|]. split; [lia|]. unfold supp_rx. destruct (Z.ltb_spec (zlen f) 4); [lia|]. rewrite rd1_in by lia. cbn [obind]. rewrite F3. change (3 =? 0) with false. change (negb (3 =? 3)) with false. cbn iota.
  unfold rx_key. rewrite E. cbn [obind]. rewrite K3, ver_mod. unfold right_version, version in RV. rewrite RV.
  replace (desc_ver s) with (if cmac_of (f_mode (x_f s)) then 0 else 2) by (rewrite cmac_is; reflexivity). rewrite Z.eqb_refl. cbn [negb]. destruct (Z.ltb_spec 355 (kv_frame_len k)); [lia|].
  rewrite mread_part by lia. cbn [obind].
  rewrite (mwrite_eq (repeat 0 355) [] (repeat 0 (Z.to_nat (kv_frame_len k))) (repeat 0 (Z.to_nat (355 - kv_frame_len k))) (part f 0 (kv_frame_len k)) 0 (copy_of f k));
    [|cbn [app]; rewrite <- repeat_split; f_equal; lia|reflexivity|rewrite zlen_part, zlen_repeat by lia; lia|reflexivity]. cbn [obind]. reflexivity.
Qed.

(** With a key available, message 1 is answered with a message 2 carrying its counter,
    the fresh nonce and the station's RSN element, under a MIC with the derived KCK;
    then a valid message 3 makes the supplicant hand over the pairwise and the group
    key, answer message 4 with that counter, and be authenticated. *)
Theorem wpa_handshake_completes : forall c t f1 n1 e1 sn p mic2 f3 n3 e3 idx gtk mic4, crypto_ok c -> history c t ->
  let s := current t in let x := x_f s in let m2 := key_msg (m2_info (f_mode x)) 16 (part f1 9 8) sn (x_own s) in
  let m4 := key_msg (m4_info (f_mode x)) 16 (part f3 9 8) (repeat 0 32) [] in
  x_state s = M1Wait -> f_send x = true -> sop_ok (SRx f1 n1 e1) -> sop_ok (SRx f3 n3 e3) ->
  is_m1 f1 -> right_version (f_mode x) f1 -> 4 + word f1 2 <= 355 -> e_snonce e1 = Some sn -> e_send e1 = true ->
  cr_ptk c (cmac_of (f_mode x)) (x_pmk s) (f_ap x) (f_sta x) (nonce f1) sn = Some p ->
  cr_mic c (cmac_of (f_mode x)) (p_kck p) (m2 (repeat 0 16)) = Some mic2 ->
  is_m3 f3 -> right_version (f_mode x) f3 -> 4 + word f3 2 <= 355 -> nonce f3 = nonce f1 -> counter f1 < counter f3 ->
  mic_valid c (cmac_of (f_mode x)) (p_kck p) f3 -> keydata_ok c (p_kek p) f3 (f_apie x) true idx gtk ->
  e_inst_p e3 = true -> e_inst_g e3 = true -> e_send e3 = true ->
  cr_mic c (cmac_of (f_mode x)) (p_kck p) (m4 (repeat 0 16)) = Some mic4 ->
  exists en1 en3, srun c s [SRx f1 n1 e1; SRx f3 n3 e3] = Some [en1; en3] /\ t_ok en1 = true /\ t_ok en3 = true /\
    t_out en1 = [ODraw sn; OSend (m2 mic2)] /\ x_state (t_after en1) = M3Wait /\
    t_out en3 = (if f_inst x then [OInstall true 0 (p_tk p) true; OInstall false idx gtk true] else []) ++ [OSend (m4 mic4)] /\ x_state (t_after en3) = Auth.
Proof.
  intros c t f1 n1 e1 sn p mic2 f3 n3 e3 idx gtk mic4 CO HH s x m2 m4 ST FS (B1 & EO1) (B3 & EO3) M1 RV1 L1 SN ES1 PT MI2 M3 RV3 L3 NE CT MV KD IP IG ES3 MI4.
  apply history_trace in HH. pose proof (trace_inv c t CO HH) as SI. fold s in SI. pose proof SI as [i_io0 i_rep0 i_sn0 i_own0 i_cache0 i_sae0 i_flags0 i_m3].
  pose proof M1 as (KF1 & A1 & A2 & A3). pose proof M3 as (KF3 & D1 & D2 & D3 & D4 & D5).
  destruct (rx_key_frame c e1 s f1 n1 B1 KF1 RV1 L1) as (k1 & KS1 & KL1 & R1). rewrite ST in R1. pose proof KS1 as (_ & _ & K3 & _ & K5 & K6 & _ & _).
  destruct (frame_counter f1 B1 KF1) as (C1 & C2 & C3). destruct (frame_counter f3 B3 KF3) as (G1 & G2 & G3). pose proof EO1 as (ESN & _). destruct (ESN sn SN) as [LS BS].
  unfold handle_m1 in R1. rewrite K3 in R1. replace (key_info_has (word f1 5) (8 + 128) 256) with true in R1.
  2: { symmetry. apply has_m1. split; [exact A1|]. split; [exact A2|]. unfold bit, b_mic in A3. destruct (Z.testbit (word f1 5) 8); [congruence|reflexivity]. }
  cbn [negb] in R1. rewrite SN in R1. cbn [x_h x_pmk x_f set_h h_ptk h_have_ptk h_anonce h_snonce h_replay h_have_replay] in R1. rewrite K6, K5 in R1. change (part f1 17 32) with (nonce f1) in R1.
  unfold is_cmac in R1 at 1. cbn [x_f set_h] in R1. fold (is_cmac s) in R1. fold x in R1. rewrite <- (cmac_is s) in R1. fold x in R1. rewrite PT in R1.
  match type of R1 with context [send_m2 c e1 ?y] => set (s1 := y) in R1 end.
  unfold send_m2 in R1. rewrite (send_exact c e1 s1 _ 16 _ _ _ mic2) in R1; [|exact CO|apply info_m2|lia|exact C1|exact LS|apply i_own0|exact FS|exact ES1|].
  2: { rewrite m2_info_eq. rewrite <- cmac_is. exact MI2. }
  cbn [obind negb] in R1.
  set (s2 := set_state (set_m2 s1 n1 3) M3Wait) in R1.
  assert (SI2 : SInv s2) by (constructor; cbn; auto; lia).
  destruct (rx_key_frame c e3 s2 f3 n3 B3 KF3 RV3 L3) as (k3 & KS3 & KL3 & R3). change (x_state s2) with M3Wait in R3. cbn iota in R3.
  pose proof KS3 as (_ & _ & J3 & _ & J5 & J6 & _ & _). unfold m1_retransmit in R3. rewrite J3 in R3.
  replace (key_info_has (word f3 5) (8 + 128) 256) with false in R3. 2: { symmetry. apply Bool.not_true_is_false. rewrite has_m1. unfold bit, b_mic in D3. intros (_ & _ & Q). congruence. }
  cbn [negb obind] in R3. unfold handle_m3 in R3. rewrite J3 in R3. replace (key_info_has (word f3 5) (8 + 128 + 256 + 64) 0) with true in R3 by (symmetry; apply has_m3; auto). cbn [negb] in R3.
  change (h_have_replay (x_h s2)) with true in R3. change (h_replay (x_h s2)) with (part f1 9 8) in R3. cbn [andb] in R3. rewrite J5, newer_spec in R3; [|congruence|exact G2|exact C2].
  fold (counter f1) in R3. fold (counter f3) in R3. destruct (Z.ltb_spec (counter f1) (counter f3)); [|lia]. cbn [negb] in R3. rewrite J6 in R3. change (part f3 17 32) with (nonce f3) in R3. change (h_anonce (x_h s2)) with (nonce f1) in R3.
  replace (bytes_eqb (nonce f3) (nonce f1)) with true in R3 by (symmetry; apply bytes_eqb_eq; exact NE). cbn [negb] in R3.
  destruct (verify_spec c s2 f3 k3 (copy_of f3 k3) B3 KF3 KS3 KL3 eq_refl) as (v & EV & VS). rewrite EV in R3. cbn [obind] in R3. replace v with true in R3. 2: { symmetry. apply VS. rewrite <- cmac_is. exact MV. }
  cbn [negb] in R3. destruct (parse_data_spec c s2 f3 k3 true CO B3 KF3 KS3) as (g & EG & _ & PG). rewrite EG in R3. cbn [obind] in R3.
  rewrite (PG idx gtk KD) in R3. rewrite IP, IG in R3. assert (LK : 0 <? zlen gtk = true). { destruct KD as (_ & _ & _ & pl & _ & (i & _ & _ & _ & Q & _) & _). lia. }
  rewrite LK in R3. cbn [negb andb orb] in R3. rewrite Bool.andb_false_r in R3. change (f_inst (x_f s2)) with (f_inst x) in R3. change (p_tk (h_ptk (x_h s2))) with (p_tk p) in R3.
  match type of R3 with context [send_key c e3 ?y] => set (s3 := y) in R3 end.
  rewrite (send_exact c e3 s3 _ 16 _ _ _ mic4) in R3; [|exact CO|apply info_m4|lia|exact G1|reflexivity|cbn; lia|exact FS|exact ES3|].
  2: { rewrite m4_info_eq. rewrite <- cmac_is. exact MI4. }
  cbn [obind negb] in R3. cbn [srun sstep]. rewrite R1. cbn [obind]. rewrite R3. cbn [obind].
  eexists _, _. split; [reflexivity|]. cbn [t_ok t_out t_after]. split; [reflexivity|]. split; [reflexivity|]. split; [rewrite m2_info_eq; reflexivity|]. split; [reflexivity|]. split; [rewrite m4_info_eq; reflexivity|reflexivity].
Qed.
Print Assumptions wpa_handshake_completes.

(** In the authenticated state a valid group message 1 newer than the last accepted
    message hands over its group key and is acknowledged. *)
Theorem wpa_group_rekey_completes : forall c t f now e idx gtk mic, crypto_ok c -> history c t ->
  let s := current t in let x := x_f s in let p := h_ptk (x_h s) in let g2 := key_msg (g2_info (f_mode x)) 0 (part f 9 8) (repeat 0 32) [] in
  x_state s = Auth -> f_send x = true -> sop_ok (SRx f now e) -> is_group1 f -> right_version (f_mode x) f -> 4 + word f 2 <= 355 ->
  num (h_replay (x_h s)) < counter f -> mic_valid c (cmac_of (f_mode x)) (p_kck p) f -> keydata_ok c (p_kek p) f (f_apie x) false idx gtk ->
  e_inst_g e = true -> e_send e = true -> cr_mic c (cmac_of (f_mode x)) (p_kck p) (g2 (repeat 0 16)) = Some mic ->
  exists en, srun c s [SRx f now e] = Some [en] /\ t_ok en = true /\ x_state (t_after en) = Auth /\ num (h_replay (x_h (t_after en))) = counter f /\
    t_out en = (if f_inst x then [OInstall false idx gtk true] else []) ++ [OSend (g2 mic)].
Proof.
  intros c t f now e idx gtk mic CO HH s x p g2 ST FS (HB & EO) M1 RV L CT MV KD IG ES MI.
  apply history_trace in HH. pose proof (trace_inv c t CO HH) as SI. fold s in SI. pose proof SI as [i_io0 i_rep0 i_sn0 i_own0 i_cache0 i_sae0 i_flags0 i_m3]. pose proof M1 as (KF & A1 & A2 & A3 & A4 & A5).
  destruct (rx_key_frame c e s f now HB KF RV L) as (k & KS & KL & R). rewrite ST in R. pose proof KS as (_ & _ & K3 & _ & K5 & K6 & _ & _). destruct (frame_counter f HB KF) as (C1 & C2 & C3).
  change 8 with (2 ^ 3) in R. rewrite clear_bit in R by lia. rewrite K3 in R. unfold bit, b_pairwise in A1. destruct (Z.testbit (word f 5) 3) eqn:T3; [congruence|]. cbn [negb] in R.
  unfold handle_group_m1 in R. rewrite K3 in R. replace (key_info_has (word f 5) (128 + 256 + 512 + 4096) 0) with true in R by (symmetry; apply has_g1; auto). cbn [negb] in R.
  destruct i_flags0 as [HP HR]; [right; exact ST|]. rewrite HR in R. cbn [andb] in R. rewrite K5, newer_spec in R; [|rewrite C1; symmetry; apply i_rep0|exact C2|apply i_rep0].
  fold (counter f) in R. destruct (Z.ltb_spec (num (h_replay (x_h s))) (counter f)); [|lia]. cbn [negb] in R.
  destruct (verify_spec c s f k (copy_of f k) HB KF KS KL eq_refl) as (v & EV & VS). rewrite EV in R. cbn [obind] in R. replace v with true in R. 2: { symmetry. apply VS. rewrite <- cmac_is. exact MV. }
  cbn [negb] in R. destruct (parse_data_spec c s f k false CO HB KF KS) as (g & EG & _ & PG). rewrite EG in R. cbn [obind] in R. rewrite (PG idx gtk KD) in R. rewrite IG in R. cbn [negb] in R. rewrite Bool.andb_false_r in R.
  match type of R with context [send_key c e ?y] => set (s3 := y) in R end.
  rewrite (send_exact c e s3 _ 0 _ _ _ mic) in R; [|exact CO|apply info_g2|lia|exact C1|reflexivity|cbn; lia|exact FS|exact ES|].
  2: { rewrite g2_info_eq. rewrite <- cmac_is. exact MI. }
  cbn [obind] in R. cbn [srun sstep]. rewrite R. cbn [obind]. eexists. split; [reflexivity|]. cbn [t_ok t_out t_after]. split; [reflexivity|]. split; [exact ST|]. split; [reflexivity|]. rewrite g2_info_eq. reflexivity.
Qed.
Print Assumptions wpa_group_rekey_completes.
