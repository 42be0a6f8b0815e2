(** The invariant of uploads (write requests) to the server. *)
From Verif Require Import Base ListUtil HttpUrl TftpCodec TftpCodecSpec TftpCodecProofs TftpCodecProps Tftp TftpSpec TftpClient TftpServerSpec TftpServer TftpServerInv.
Local Ltac Zify.zify_post_hook ::= Z.to_euclidean_division_equations.

Definition winv (F : list Z) (b : Z) (x : sess) (log : list event) : Prop :=
  let h := x_handle x in let n := nblocks_h h log in let s := firstn (Z.to_nat (n * b)) F in
  stored_h h log = Some s /\ x_off x = zlen s /\ x_total x = zlen s /\ x_next x = (n + 1) mod 65536 /\ zlen s < 4294967296.
Fixpoint closed_ok (F : endpoint -> list Z -> list Z) (log : list event) : Prop :=
  match log with
  | [] => True
  | EClose h st :: r => (st = 0 -> forall name peer, live h r = Some (name, true, peer) -> stored_h h r = Some (F peer name)) /\ closed_ok F r
  | _ :: r => closed_ok F r
  end.
Definition uinv (F : endpoint -> list Z -> list Z) (B : endpoint -> list Z -> Z) (l : list sess) (log : list event) : Prop :=
  forall i x name peer, nth_error l i = Some x -> is_free x = false -> x_write x = true -> live (x_handle x) log = Some (name, true, peer) -> winv (F peer name) (B peer name) x log.

(** ** Events of other handles *)
Definition ev_h (e : event) : option Z :=
  match e with
  | EOpen _ _ _ rc h _ _ => if rc =? 0 then Some h else None
  | EWrite h _ _ rc => if rc =? 0 then Some h else None
  | EClose h _ => Some h
  | _ => None
  end.
Lemma other_h h l log : Forall (fun e => ev_h e <> Some h) l -> live h (l ++ log) = live h log /\ stored_h h (l ++ log) = stored_h h log /\ nblocks_h h (l ++ log) = nblocks_h h log.
Proof.
  induction 1 as [|e l Q _ (A & B & C)]; [auto|]. cbn [app]. destruct e; cbn [live stored_h nblocks_h ev_h] in *; auto.
  - destruct (rc =? 0); cbn [andb]; [destruct (Z.eqb_spec handle h); [congruence|auto]|auto].
  - destruct (rc =? 0); cbn [andb]; [destruct (Z.eqb_spec handle h); [congruence|auto]|auto].
  - destruct (Z.eqb_spec handle h); [congruence|auto].
Qed.
(** Events that do not touch what is stored or open. *)
Definition calm (e : event) : Prop := nio e /\ match e with EWrite _ _ _ rc => rc <> 0 | _ => True end.
Lemma calm_h h e : calm e -> ev_h e <> Some h.
Proof. intros (Q1 & Q2). destruct e; cbn in *; try contradiction; try discriminate. destruct (Z.eqb_spec rc 0); [contradiction|discriminate]. Qed.
Lemma plain_h h e : plain e -> ev_h e <> Some h.
Proof. intros q. destruct e; cbn in *; try contradiction; try discriminate. destruct (Z.eqb_spec rc 0); [contradiction|discriminate]. Qed.
Lemma onio_h file name x h e : x_handle x <> h -> onio file name x e -> ev_h e <> Some h.
Proof. intros N (Q1 & Q2). destruct e; cbn in *; try contradiction; try discriminate. destruct Q1 as (-> & _). destruct (rc =? 0); congruence. Qed.
Lemma onio_other file name x h w w' : x_handle x <> h -> adds (onio file name x) w w' -> live h (snd w') = live h (snd w) /\ stored_h h (snd w') = stored_h h (snd w) /\ nblocks_h h (snd w') = nblocks_h h (snd w).
Proof.
  intros N (l & E & F). rewrite E. apply other_h. eapply Forall_impl; [|exact F]. intros e. apply onio_h. exact N.
Qed.
Lemma closed_nio F w w' : adds nio w w' -> closed_ok F (snd w) -> closed_ok F (snd w').
Proof. intros (l & E & Q) H. rewrite E. clear E. induction Q as [|e l q _ IH]; [exact H|]. cbn [app]. destruct e; cbn in *; try contradiction; exact IH. Qed.
Lemma onio_nio file name x w w' : adds (onio file name x) w w' -> adds nio w w'.
Proof. apply adds_weak. intros e (_ & Q). exact Q. Qed.

Lemma ustep F B file o c hist l v w i x q x' w' P : sinv file o c hist l (snd w) -> nth_error l i = Some x -> is_free x = false -> serves file o c hist (snd w) i x q -> outcome file (q_name q) v x w x' w' P ->
  uinv F B l (snd w) -> (is_free x' = false -> x_write x = true -> winv (F (x_remote x) (q_name q)) (B (x_remote x) (q_name q)) x' (snd w')) -> uinv F B (set_nth i x' l) (snd w').
Proof.
  intros (_ & DI & _) HN HF SV OUT U W. pose proof SV as (S1 & S2 & S3 & S4 & S5 & S6 & _). assert (Li : (i < length l)%nat) by (apply nth_error_Some; congruence).
  intros j y name peer Ny Fy Wy Ly. destruct (Nat.eq_dec j i) as [->|Hj].
  - rewrite set_nth_same in Ny by assumption. injection Ny as <-. destruct OUT as [(K1 & _)|(K1 & K2 & _)]; [congruence|]. pose proof K1 as (E1 & E2 & E3 & E4 & E5 & _).
    assert (Wx : x_write x = true) by congruence. specialize (W Fy Wx). rewrite E3 in Ly. assert (L1 : live (x_handle x) (snd w') = live (x_handle x) (snd w)) by (destruct K2 as (l2 & E & G); rewrite E; eapply live_onio; exact G).
    rewrite L1, S6 in Ly. injection Ly as <- _ <-. exact W.
  - rewrite set_nth_other in Ny by congruence. destruct (DI i j x y HN Ny HF Fy ltac:(congruence)) as (_ & NH).
    assert (X : live (x_handle y) (snd w') = live (x_handle y) (snd w) /\ stored_h (x_handle y) (snd w') = stored_h (x_handle y) (snd w) /\ nblocks_h (x_handle y) (snd w') = nblocks_h (x_handle y) (snd w)).
    { destruct OUT as [(_ & w1 & st & K2 & ->)|(_ & K2 & _)]; [|eapply onio_other; eassumption]. destruct (onio_other _ _ _ _ _ _ NH K2) as (X1 & X2 & X3). rewrite (sfinish_log _ _ _ _ S5). destruct (has_close (v_ops v)); [|auto]. rewrite <- X1, <- X2, <- X3. apply (other_h (x_handle y) [EClose (x_handle x) st]). constructor; [cbn; congruence|constructor]. }
    destruct X as (X1 & X2 & X3). rewrite X1 in Ly. unfold winv. rewrite X2, X3. exact (U j y name peer Ny Fy Wy Ly).
Qed.

Lemma closed_outcome F file name v x w x' w' P peer : outcome file name v x w x' w' P -> x_handle x <> 0 -> live (x_handle x) (snd w) = Some (name, false, peer) -> closed_ok F (snd w) -> closed_ok F (snd w').
Proof.
  intros [(_ & w1 & st & K2 & ->)|(_ & K2 & _)] H0 HL C; [|eapply closed_nio; [eapply onio_nio; exact K2|exact C]].
  assert (C1 : closed_ok F (snd w1)) by (eapply closed_nio; [eapply onio_nio; exact K2|exact C]). rewrite (sfinish_log _ _ _ _ H0). destruct (has_close (v_ops v)); [|exact C1]. split; [|exact C1]. intros _ nm p. assert (live (x_handle x) (snd w1) = live (x_handle x) (snd w)) as -> by (destruct K2 as (l2 & E & G); rewrite E; eapply live_onio; exact G). rewrite HL. discriminate.
Qed.
Lemma closed_finish F v x w st : x_handle x <> 0 -> st <> 0 -> closed_ok F (snd w) -> closed_ok F (snd (server_finish v x w st)).
Proof. intros H0 HS C. rewrite (sfinish_log _ _ _ _ H0). destruct (has_close (v_ops v)); [|exact C]. split; [contradiction|exact C]. Qed.

Lemma nblocks_h_nonneg h log : 0 <= nblocks_h h log.
Proof. induction log as [|e r IH]; cbn [nblocks_h]; [lia|]. destruct e; try exact IH; match goal with |- context [if ?g then _ else _] => destruct g end; lia. Qed.
Lemma winv_nio F b x x' w w' : adds calm w w' -> winv F b x (snd w) -> x_handle x' = x_handle x -> x_off x' = x_off x -> x_total x' = x_total x -> x_next x' = x_next x -> winv F b x' (snd w').
Proof.
  intros (l & E & Q) W H1 H2 H3 H4. unfold winv in *. rewrite H1, H2, H3, H4. destruct (other_h (x_handle x) l (snd w)) as (_ & X2 & X3); [|rewrite E, X2, X3; exact W].
  eapply Forall_impl; [|exact Q]. apply calm_h.
Qed.

(** A DATA packet in an upload. *)
Lemma accept_wrq_store G v x w block data r x' w' F b name peer : accept_wrq v x w block data = (r, x', w') -> x_handle x <> 0 -> 0 < b <= 65535 -> live (x_handle x) (snd w) = Some (name, true, peer) -> F = G peer name -> winv F b x (snd w) -> is_free x = false ->
  (block = x_next x -> data = chunk F b (nblocks_h (x_handle x) (snd w) + 1) /\ n_blksize (x_neg x) <= b) -> closed_ok G (snd w) ->
  (is_free x' = false -> winv F b x' (snd w')) /\ closed_ok G (snd w').
Proof.
  intros H H0 Hb HL EF W HF HD CO. unfold accept_wrq in H. cbv beta zeta in H. set (h := x_handle x) in *.
  assert (SN : forall o w l r p t rc w', tftp_send o w l r p t = (rc, w') -> adds calm w w') by (intros; eapply send_adds; [eassumption|split; exact Logic.I]).
  assert (NI : forall a b, adds calm a b -> adds nio a b) by (intros a b0; apply adds_weak; unfold calm; tauto).
  destruct (Z.eqb_spec block (x_next x)) as [Eb|Eb].
  2:{ destruct ((block =? x_acked x) || (block =? u16 (x_next x - 1))); [|inv H; auto].
    match type of H with (let '(_, _) := ?e in _) = _ => destruct e as [rs w1] eqn:E1 end. inv H. apply SN in E1. split; [intros _; eapply winv_nio; [exact E1|exact W|reflexivity..]|eapply closed_nio; [apply NI; exact E1|exact CO]]. }
  destruct (HD Eb) as (Ed & Hbl). clear HD. pose proof W as (W1 & W2 & W3 & W4 & W5). pose proof (nblocks_h_nonneg h (snd w)) as Hn. fold h in W1, W2, W3, W4, W5, Ed, Hn. set (n := nblocks_h h (snd w)) in *. set (s := firstn (Z.to_nat (n * b)) F) in *.
  cbn [x_remote x_neg x_handle x_off x_total x_deadline x_wsoff x_wstotal x_wsblock x_wsfinal x_local x_next x_acked x_wcount x_retries x_write x_optsent x_oack x_final x_state x_idx x_wsidx] in H.
  match type of H with (if ?e then _ else _) = _ => destruct e eqn:G0 end.
  { match type of H with (let '(_, _) := ?e in _) = _ => destruct e as [rs w1] eqn:E1 end. inv H. split; [discriminate|]. apply closed_finish; [exact H0|discriminate|]. eapply closed_nio; [|exact CO]. eapply error_adds; [exact E1|]. intros. exact Logic.I. }
  apply orb_false_iff in G0. destruct G0 as (G1 & _). apply Z.ltb_ge in G1.
  assert (L : 0 <= zlen data <= b) by (rewrite Ed, chunk_len by lia; lia).
  assert (L2 : x_total x + zlen data < 4294967296) by (unfold u32 in G1; rewrite Z.mod_small in G1 by lia; lia).
  match type of H with (let '(_, _) := ?e in _) = _ => destruct e as [a w1] eqn:E1 end.
  pose proof (closed_nio G w w1 ltac:(eapply adds_call; [exact E1|exact Logic.I]) CO) as CO1. apply call_inv in E1.
  destruct (Z.eqb_spec (a_rc a) 0) as [Ra|Ra]; cbn [negb] in H; [|inv H; split; [discriminate|]; apply closed_finish; [exact H0|discriminate|exact CO1]].
  match type of H with (let '(_, _) := ?e in _) = _ => destruct e as [rh w2] eqn:E2 end.
  assert (A2 : adds calm w1 w2).
  { match type of E2 with (if ?e then _ else _) = _ => destruct e end; [|inv E2; apply adds_refl]. match type of E2 with (let '(_, _) := ?e in _) = _ => destruct e as [a2 w2'] eqn:E3 end. inv E2. eapply adds_call; [exact E3|split; exact Logic.I]. }
  pose proof (closed_nio G w1 w2 (NI _ _ A2) CO1) as CO2.
  destruct (negb (rh =? 0)); [inv H; split; [discriminate|]; apply closed_finish; [exact H0|discriminate|exact CO2]|].
  assert (STEP : s ++ data = firstn (Z.to_nat ((n + 1) * b)) F) by (unfold s; rewrite Ed; apply chunk_step; lia).
  assert (WN : forall y, x_handle y = h -> x_off y = u32 (x_off x + zlen data) -> x_total y = u32 (x_total x + zlen data) -> x_next y = u16 (x_next x + 1) -> winv F b y (snd w1)).
  { intros y Y1 Y2 Y3 Y4. unfold winv. rewrite Y1, Y2, Y3, Y4, E1, Ra. cbn [stored_h nblocks_h]. change (0 =? 0) with true. rewrite Z.eqb_refl. cbn [andb]. fold h n. rewrite W1. cbn [obind]. rewrite W2, Z.eqb_refl, W3. replace (1 + n) with (n + 1) by lia. rewrite <- STEP, zlen_app. unfold u32. rewrite !Z.mod_small by (pose proof (zlen_nonneg s); lia).
    split; [reflexivity|]. split; [reflexivity|]. split; [reflexivity|]. split; [|lia]. rewrite W4. unfold u16. rewrite Z.add_mod_idemp_l by lia. reflexivity. }
  assert (FIN : forall y w3 w4 x4 r4, x_handle y = h -> x_off y = u32 (x_off x + zlen data) -> x_total y = u32 (x_total x + zlen data) -> x_next y = u16 (x_next x + 1) -> adds calm w1 w3 ->
    (if zlen data <? n_blksize (x_neg x) then
        let '(r, w) := if has_verify (v_ops v) then let '(a, w) := call w3 (fun a => EVerify (x_handle y) (x_total y) (a_rc a)) in (a_rc a, w) else (0, w3) in
        if negb (r =? 0) then (ERR_VERIFY, sess0, server_finish v y w ERR_VERIFY) else (0, sess0, server_finish v y w 0)
      else (0, y, w3)) = (r4, x4, w4) -> (is_free x4 = false -> winv F b x4 (snd w4)) /\ closed_ok G (snd w4)).
  { intros y w3 w4 x4 r4 Y1 Y2 Y3 Y4 AY HY. pose proof (closed_nio G w1 w3 (NI _ _ AY) CO1) as CO3.
    destruct (Z.ltb_spec (zlen data) (n_blksize (x_neg x))) as [Lt|Ge]; [|inv HY; split; [|exact CO3]; intros _; eapply winv_nio; [exact AY|exact (WN _ Y1 Y2 Y3 Y4)|reflexivity..]].
    match type of HY with (let '(_, _) := ?e in _) = _ => destruct e as [rv w5] eqn:E5 end.
    assert (A5 : adds calm w3 w5).
    { destruct (has_verify (v_ops v)); [|inv E5; apply adds_refl]. match type of E5 with (let '(_, _) := ?e in _) = _ => destruct e as [a2 w2'] eqn:E3 end. inv E5. eapply adds_call; [exact E3|split; exact Logic.I]. }
    pose proof (closed_nio G w3 w5 (NI _ _ A5) CO3) as CO5.
    destruct (negb (rv =? 0)); inv HY; (split; [discriminate|]); [apply closed_finish; [rewrite Y1; exact H0|discriminate|exact CO5]|].
    rewrite sfinish_log by (rewrite Y1; exact H0). destruct (has_close (v_ops v)); [|exact CO5]. split; [|exact CO5]. intros _ nm pr LV. rewrite Y1 in *.
    pose proof (WN y Y1 Y2 Y3 Y4) as WY. pose proof (winv_nio _ _ _ y _ _ (adds_trans _ _ _ _ AY A5) WY eq_refl eq_refl eq_refl eq_refl) as (Z1 & _). rewrite Y1 in Z1.
    assert (LW : live h (snd w5) = live h (snd w)).
    { rewrite (live_nio h w1 w5) by (apply NI; eapply adds_trans; eassumption). rewrite E1. reflexivity. }
    rewrite LW, HL in LV. injection LV as <- <-. rewrite Z1. f_equal.
    assert (NB : nblocks_h h (snd w5) = n + 1).
    { destruct (adds_trans _ _ _ _ AY A5) as (l5 & EL & FL). destruct (other_h h l5 (snd w1)) as (_ & _ & X3); [|rewrite EL, X3, E1, Ra; cbn [nblocks_h]; rewrite !Z.eqb_refl; cbn [andb]; fold h; fold n; lia].
      eapply Forall_impl; [|exact FL]. apply calm_h. }
    rewrite NB. apply chunk_short; [lia|lia|lia]. }
  match type of H with (if ?e then _ else _) = _ => destruct e end.
  - match type of H with (let '(_, _) := ?e in _) = _ => destruct e as [rs w3] eqn:E3 end. apply SN in E3. pose proof (adds_trans _ _ _ _ A2 E3) as A3.
    destruct (negb (rs =? 0)); [inv H; split; [intros _; match goal with |- winv _ _ ?y _ => pose proof (WN y eq_refl eq_refl eq_refl eq_refl) as WY end; eapply winv_nio; [exact A3|exact WY|reflexivity..]|eapply closed_nio; [apply NI; exact A3|exact CO1]]|].
    eapply FIN; [| | | |exact A3|exact H]; reflexivity.
  - eapply FIN; [| | | |exact A2|exact H]; reflexivity.
Qed.

(** ** Steps *)
Lemma uinv_plain F B l w w' : adds plain w w' -> uinv F B l (snd w) -> closed_ok F (snd w) -> uinv F B l (snd w') /\ closed_ok F (snd w').
Proof.
  intros A U C. split; [|destruct A as (evs & E & Q); rewrite E; clear E; induction Q as [|e evs q _ IH]; [exact C|]; cbn [app]; destruct e; cbn in q; try contradiction; exact IH].
  intros i x name peer N Fx W L. destruct A as (evs & E & Q). rewrite E in *. destruct (other_h (x_handle x) evs (snd w)) as (X1 & X2 & X3).
  { eapply Forall_impl; [|exact Q]. apply plain_h. }
  unfold winv. rewrite X2, X3. rewrite X1 in L. eapply U; eassumption.
Qed.
Lemma uinv_free F B l log i y : uinv F B l log -> is_free y = true -> uinv F B (set_nth i y l) log.
Proof.
  intros U Fy j z name peer N Fz W L. destruct (Nat.eq_dec j i) as [->|]; [|rewrite set_nth_other in N by congruence; eapply U; eassumption].
  destruct (Nat.lt_ge_cases i (length l)); [rewrite set_nth_same in N by assumption; congruence|]. assert (X : nth_error (set_nth i y l) i = None) by (apply nth_error_None; rewrite set_nth_length; assumption). congruence.
Qed.
Lemma build_oack_err buf max g opts e : build_oack buf max g opts = Some (inr e) -> e <> 0.
Proof. unfold build_oack. intros H. cbv zeta in H. inv1 H. inv1 H. inv1 H. inv1 H. inv1 H. destruct p2 as [[[b1 off] bits] err]. destruct (Z.eqb_spec err 0); cbn [negb] in H; [inv1 H; discriminate H|]. injection H as <-. assumption. Qed.
(** Opening a file for writing. *)
Lemma uinv_open F B l (w w1 w' : world) i x name hint size : uinv F B l (snd w) -> snd w1 = EOpen name true hint 0 (x_handle x) size (x_remote x) :: snd w ->
  (forall j y, nth_error l j = Some y -> is_free y = false -> x_handle y <> x_handle x) ->
  adds calm w1 w' -> x_off x = 0 -> x_total x = 0 -> x_next x = 1 -> (i < length l)%nat -> uinv F B (set_nth i x l) (snd w').
Proof.
  intros U E1 HN A X1 X2 X3 Li j y nm peer N Fy W L.
  assert (OT : forall h, live h (snd w') = live h (snd w1) /\ stored_h h (snd w') = stored_h h (snd w1) /\ nblocks_h h (snd w') = nblocks_h h (snd w1)).
  { intros h. destruct A as (evs & E & Q). rewrite E. apply other_h. eapply Forall_impl; [|exact Q]. apply calm_h. }
  destruct (OT (x_handle y)) as (T1 & T2 & T3). unfold winv. rewrite T2, T3. rewrite T1 in L. rewrite E1 in *. destruct (Nat.eq_dec j i) as [->|Hj].
  - rewrite set_nth_same in N by assumption. injection N as <-. cbn [live stored_h nblocks_h] in *. change (0 =? 0) with true in *. rewrite Z.eqb_refl in *. cbn [andb] in *. rewrite X1, X2, X3. change (Z.to_nat (0 * B peer nm)) with 0%nat. cbn [firstn]. change (zlen []) with 0. split; [reflexivity|]. split; [reflexivity|]. split; [reflexivity|]. split; [reflexivity|lia].
  - rewrite set_nth_other in N by congruence. specialize (HN j y N Fy). cbn [live stored_h nblocks_h] in *. destruct (Z.eqb_spec (x_handle x) (x_handle y)); [congruence|]. rewrite andb_false_r in *. eapply U; eassumption.
Qed.
Lemma uinv_open_read F B l (w w1 : world) i x name hint size : uinv F B l (snd w) -> snd w1 = EOpen name false hint 0 (x_handle x) size (x_remote x) :: snd w ->
  (forall j y, nth_error l j = Some y -> is_free y = false -> x_handle y <> x_handle x) -> x_write x = false -> (i < length l)%nat -> uinv F B (set_nth i x l) (snd w1).
Proof.
  intros U E1 HN X1 Li j y nm peer N Fy W L. rewrite E1 in *. destruct (Nat.eq_dec j i) as [->|Hj].
  - rewrite set_nth_same in N by assumption. injection N as <-. congruence.
  - rewrite set_nth_other in N by congruence. specialize (HN j y N Fy). unfold winv. cbn [live stored_h nblocks_h] in *. destruct (Z.eqb_spec (x_handle x) (x_handle y)); [congruence|]. rewrite andb_false_r in *. eapply U; eassumption.
Qed.
Lemma start_request_u file F B o c hist v w remote buf q r v' w' : cfg_ok (cfg_defaults c) -> head o c v -> sinv file o c hist (v_sess v) (snd w) -> Forall byte buf -> zlen buf <= 65535 -> parse_request buf = Some (inl q) ->
  start_request v w remote q = Some (r, v', w') -> sane (snd w') -> reads_from file (snd w') -> uinv F B (v_sess v) (snd w) -> closed_ok F (snd w) -> uinv F B (v_sess v') (snd w') /\ closed_ok F (snd w').
Proof.
  intros HC HD I HB HL HP H HS HR U CO. pose proof HD as (O1 & O2 & O3 & O4 & O5). unfold start_request in H. cbv beta zeta in H.
  destruct (parse_range buf q HB HL HP) as (R0 & R1 & R2 & R3 & R4 & R5).
  destruct (alloc_session v) as [i|] eqn:AL.
  2:{ destruct (send_error (v_ops v) w (v_listen v) remote 0 m_slots) as [rs w1] eqn:E1. inv H. eapply uinv_plain; [eapply error_plain; exact E1|exact U|exact CO]. }
  apply find_idx_some in AL. destruct AL as (x0 & _ & N0 & F0). rewrite Nat.sub_0_r in N0. assert (Li : (i < length (v_sess v))%nat) by (apply nth_error_Some; congruence).
  assert (FRE : forall (w2 : world), uinv F B (v_sess v) (snd w2) /\ closed_ok F (snd w2) -> uinv F B (v_sess (put v i sess0)) (snd w2) /\ closed_ok F (snd w2)).
  { intros w2 (U2 & C2). split; [|exact C2]. cbn [put v_sess]. apply uinv_free; [exact U2|reflexivity]. }
  match type of H with (if ?e then _ else _) = _ => destruct e end.
  { match type of H with (let '(_, _) := ?e in _) = _ => destruct e as [rs w1] eqn:E1 end. inv H. apply FRE. eapply uinv_plain; [eapply error_plain; exact E1|exact U|exact CO]. }
  match type of H with (if ?e then _ else _) = _ => destruct e eqn:IO end.
  { match type of H with (let '(_, _) := ?e in _) = _ => destruct e as [rs w1] eqn:E1 end. inv H. apply FRE. eapply uinv_plain; [eapply error_plain; exact E1|exact U|exact CO]. }
  match type of H with (let '(_, _) := call ?w ?e in _) = _ => destruct (call w e) as [a w1] eqn:E1 end.
  destruct (Z.eqb_spec (a_rc a) 0) as [Ra|Ra]; cbn [negb] in H.
  2:{ match type of H with (let '(_, _) := ?e in _) = _ => destruct e as [rs w2] eqn:E2 end. inv H. apply FRE. destruct (uinv_plain F B (v_sess v) w w1) as (U1 & C1); [eapply adds_call; [exact E1|exact Ra]|exact U|exact CO|]. eapply uinv_plain; [eapply error_plain; exact E2|exact U1|exact C1]. }
  set (wr := q_op q =? OP_WRQ) in *.
  match type of H with context [mkS remote ?g _ _ _ _ _ _ _ _ _ _ _ _ _ _ _ _ _ _ _ _] => set (g1 := g) in * end.
  assert (GB : n_blksize g1 = blk_of c q) by (unfold g1, blk_of; rewrite land_bit0, O2; destruct (negb wr && negb (Z.land (q_opts q) OPT_TSIZE =? 0)); reflexivity).
  assert (GR : 0 < n_blksize g1 <= 1428) by (rewrite GB; unfold blk_of; destruct HC as (C1 & _); destruct (Z.testbit (q_opts q) 0); [specialize (R2 eq_refl); lia|lia]).
  apply call_inv in E1. rewrite Ra in E1. set (loc := u16 (v_base v + Z.of_nat i)) in *.
  assert (CO1 : closed_ok F (snd w1)) by (rewrite E1; exact CO).
  assert (EXT : ext w1 w').
  { destruct (negb (q_opts q =? 0)); [|destruct wr].
    - inv1 H. destruct s as [pkt|e]; [|inv H; apply sfinish_adds; exact Logic.I]. match type of H with (let '(_, _) := ?e in _) = _ => destruct e as [rs w2] eqn:E2 end. inv H. eapply send_adds; [exact E2|auto].
    - match type of H with (let '(_, _) := ?e in _) = _ => destruct e as [rs w2] eqn:E2 end. inv H. eapply send_adds; [exact E2|auto].
    - inv1 H. destruct p as [[r2 x2] w2]. inv H. eapply send_window_ext; exact E. }
  pose proof (sane_ext _ _ EXT HS) as HS1. rewrite E1 in HS1. destruct (HS1 [] _ _ _ _ _ _ _ eq_refl) as (HN0 & HLV).
  assert (HN : forall j y, nth_error (v_sess v) j = Some y -> is_free y = false -> x_handle y <> a_handle a).
  { intros j y Ny Fy E. pose proof I as (IA & _). destruct (IA j y Ny Fy) as (q' & _ & _ & _ & _ & _ & T6 & _). rewrite E, HLV in T6. discriminate. }
  assert (SN : forall (w2 : world) rs pk, tftp_send (v_ops v) w1 loc remote pk 0 = (rs, w2) -> adds calm w1 w2) by (intros; eapply send_adds; [eassumption|split; exact Logic.I]).
  (* the new session after a packet without data *)
  assert (NEW : forall (x : sess) (w2 : world) rs pk, x_handle x = a_handle a -> x_remote x = remote -> x_off x = 0 -> x_total x = 0 -> x_next x = 1 -> x_write x = wr -> tftp_send (v_ops v) w1 loc remote pk 0 = (rs, w2) -> uinv F B (v_sess (put v i x)) (snd w2) /\ closed_ok F (snd w2)).
  { intros x w2 rs pk X1 X2 X3 X4 X5 X6 ES. apply SN in ES. split; [|eapply closed_nio; [|exact CO1]; eapply adds_weak; [|exact ES]; unfold calm; tauto]. rewrite put_sess. destruct wr eqn:WR.
    - eapply uinv_open; [exact U|rewrite X1, X2; exact E1|rewrite X1; exact HN|exact ES|exact X3|exact X4|exact X5|exact Li].
    - assert (U1 : uinv F B (set_nth i x (v_sess v)) (snd w1)) by (eapply uinv_open_read; [exact U|rewrite X1, X2; exact E1|rewrite X1; exact HN|exact X6|exact Li]).
      intros j y nm peer Ny Fy Wy Ly. destruct ES as (evs & EE & Q). rewrite EE in *. destruct (other_h (x_handle y) evs (snd w1)) as (T1 & T2 & T3).
      { eapply Forall_impl; [|exact Q]. apply calm_h. }
      unfold winv. rewrite T2, T3. rewrite T1 in Ly. eapply U1; eassumption. }
  destruct (Z.eqb_spec (q_opts q) 0) as [Eo|Eo]; cbn [negb] in H.
  - destruct wr eqn:WR.
    + match type of H with (let '(_, _) := ?e in _) = _ => destruct e as [rs w2] eqn:E2 end. inv H. eapply NEW; [..|exact E2]; reflexivity.
    + inv1 H. destruct p as [[r2 x2] w2]. inv H. set (x := mkS _ _ _ _ _ _ _ _ _ _ _ _ _ _ _ _ _ _ _ _ _ _) in E.
      assert (U1 : uinv F B (set_nth i x (v_sess v)) (snd w1)) by (eapply uinv_open_read; [exact U|exact E1|exact HN|reflexivity|exact Li]).
      assert (OUT : outcome file (q_name q) v x w1 x2 w' (rinv (file (q_name q)))).
      { eapply send_window_inv; [exact E| | | |exact GR|exact HR| | |].
        - destruct (has_read (v_ops v)) eqn:HRd; [reflexivity|]. cbn in IO. rewrite orb_true_r in IO. discriminate.
        - reflexivity.
        - reflexivity.
        - rewrite E1. cbn. rewrite Z.eqb_refl. reflexivity.
        - cbn. lia.
        - pose proof (zlen_nonneg (file (q_name q))). unfold pos. cbn. split; [lia|]. split; [reflexivity|]. split; [lia|reflexivity]. }
      split; [|eapply closed_outcome; [exact OUT|exact HN0| |exact CO1]; rewrite E1; cbn; rewrite Z.eqb_refl; reflexivity].
      rewrite put_sess. intros j y nm peer Ny Fy Wy Ly. destruct (Nat.eq_dec j i) as [->|Hj].
      * rewrite set_nth_same in Ny by assumption. injection Ny as <-. apply (outcome_arm0 _ _ _ _ _ _ _ r) in OUT. destruct OUT as [(K1 & _)|(K1 & _)]; [congruence|]. destruct K1 as (_ & _ & _ & _ & K5 & _). rewrite K5 in Wy. discriminate Wy.
      * rewrite set_nth_other in Ny by congruence. assert (NH : x_handle x <> x_handle y) by (apply not_eq_sym; exact (HN j y Ny Fy)).
        assert (X : live (x_handle y) (snd w') = live (x_handle y) (snd w1) /\ stored_h (x_handle y) (snd w') = stored_h (x_handle y) (snd w1) /\ nblocks_h (x_handle y) (snd w') = nblocks_h (x_handle y) (snd w1)).
        { destruct OUT as [(_ & w3 & st & K2 & ->)|(_ & K2 & _)]; [|eapply onio_other; eassumption]. destruct (onio_other _ _ _ _ _ _ NH K2) as (X1 & X2 & X3). rewrite (sfinish_log v x w3 st HN0). destruct (has_close (v_ops v)); [|auto]. rewrite <- X1, <- X2, <- X3. apply (other_h (x_handle y) [EClose (x_handle x) st]). constructor; [cbn [ev_h]; intros QQ; injection QQ; exact NH|constructor]. }
        destruct X as (X1 & X2 & X3). rewrite X1 in Ly. unfold winv. rewrite X2, X3. apply (U1 j y nm peer); [rewrite set_nth_other by congruence; exact Ny|assumption..].
  - inv1 H. destruct s as [pkt|e].
    + match type of H with (let '(_, _) := ?e in _) = _ => destruct e as [rs w2] eqn:E2 end. inv H. eapply NEW; [..|exact E2]; reflexivity.
    + inv H. apply build_oack_err in E.
      set (x := mkS _ _ _ _ _ _ _ _ _ _ _ _ _ _ _ _ _ _ _ _ _ _). split; [|apply closed_finish; [exact HN0|exact E|exact CO1]]. rewrite put_sess. apply uinv_free; [|reflexivity].
      intros j y nm peer Ny Fy Wy Ly. assert (NH : a_handle a <> x_handle y) by (apply not_eq_sym; exact (HN j y Ny Fy)). rewrite (sfinish_log v x w1 r HN0) in *. unfold winv. destruct (has_close (v_ops v)); rewrite E1 in *; cbn [live stored_h nblocks_h x_handle x] in *; destruct (Z.eqb_spec (a_handle a) (x_handle y)); try congruence; rewrite andb_false_r in *; eapply U; eassumption.
Qed.

Lemma server_receive_u file F B o c hist v w local remote buf r v' w' : cfg_ok (cfg_defaults c) -> head o c v -> sinv file o c hist (v_sess v) (snd w) -> Forall byte buf -> zlen buf <= 65535 ->
  (local <> 69 -> is_data buf -> forall h name, live h (snd w) = Some (name, true, remote) -> exists i, honest_data (F remote name) (B remote name) i buf /\ Z.abs (i - (1 + nblocks_h h (snd w))) < 65536) ->
  blocks_agree B c hist -> server_receive v w local remote buf = Some (r, v', w') -> sane (snd w') -> reads_from file (snd w') ->
  uinv F B (v_sess v) (snd w) -> closed_ok F (snd w) -> uinv F B (v_sess v') (snd w') /\ closed_ok F (snd w').
Proof.
  intros HC HD I HB HL HON HBA H HS HR U CO.
  pose proof HD as (O1 & O2 & O3 & O4 & O5). unfold server_receive in H. cbv beta zeta in H. inv1 H. rename z into opcode.
  destruct (Z.eqb_spec local (v_listen v)) as [EL|EL].
  { inv1 H. destruct s as [q|e].
    - destruct (find_by_remote v remote) eqn:FR; [inv H; auto|]. eapply start_request_u; eassumption.
    - match type of H with (let '(_, _) := ?e in _) = _ => destruct e as [rs w1] eqn:E1 end. inv H. eapply uinv_plain; [|exact U|exact CO]. destruct (e =? ERR_UNSUPPORTED); eapply error_plain; exact E1. }
  destruct (find_session v local remote) as [i|] eqn:FS.
  2:{ match type of H with (let '(_, _) := ?e in _) = _ => destruct e as [rs w1] eqn:E1 end. inv H. eapply uinv_plain; [|exact U|exact CO]. eapply error_plain; exact E1. }
  apply find_idx_some in FS. destruct FS as (x & _ & NX & PX). rewrite Nat.sub_0_r in NX. apply andb_true_iff in PX. destruct PX as (PX & PR). apply andb_true_iff in PX. destruct PX as (PX & _). apply negb_true_iff in PX. apply ep_eqb_eq in PR.
  rewrite (nth_error_nth _ _ sess0 NX) in H.
  pose proof I as (IA & _). destruct (IA i x NX PX) as (q & SV). pose proof SV as (V1 & V2 & V3 & V4 & V5 & V6 & V7 & V8 & V9 & V10).
  assert (FINAL : forall (x' : sess) (w2 : world) P, outcome file (q_name q) v x w x' w2 P -> (is_free x' = false -> x_write x = true -> winv (F (x_remote x) (q_name q)) (B (x_remote x) (q_name q)) x' (snd w2)) -> uinv F B (v_sess (put v i x')) (snd w2)).
  { intros x' w2 P OUT W. rewrite put_sess. eapply ustep; eassumption. }
  assert (FIN0 : forall st, uinv F B (v_sess (put v i sess0)) (snd (server_finish v x w st))).
  { intros st. apply (FINAL sess0 _ (fun _ => True)); [|discriminate]. apply finish_out. apply adds_refl. }
  destruct (x_write x) eqn:WR.
  - destruct (opcode =? OP_ERROR); [inv H; split; [apply FIN0|apply closed_finish; [exact V5|discriminate|exact CO]]|]. inv1 H. destruct o0 as [[block data]|]; [|inv H; auto].
    destruct (accept_wrq v x w block data) as [[rs x1] w1] eqn:E1. inv H.
    assert (BR : 0 < B (x_remote x) (q_name q) <= 65464).
    { symmetry in V4. apply Z.eqb_eq in V4. pose proof (HBA (x_remote x) q V1 V4) as X. unfold OP_WRQ in *. lia. }
    destruct (accept_wrq_store F v x w block data r x1 w' (F (x_remote x) (q_name q)) (B (x_remote x) (q_name q)) (q_name q) (x_remote x) E1 V5 ltac:(lia) V6 eq_refl (U i x _ _ NX PX WR V6) PX) as (K1 & K2); [|exact CO|].
    + intros EB. assert (NL : local <> 69) by congruence. destruct (HON NL (parse_data_is _ _ _ HB E0) _ _ V6) as (k & (Hk & Ep) & Hal).
      assert (LC : 0 <= zlen (chunk (F (x_remote x) (q_name q)) (B (x_remote x) (q_name q)) k) <= B (x_remote x) (q_name q)) by (rewrite chunk_len by lia; lia).
      rewrite Ep, parse_data_pkt in E0 by lia. injection E0 as X1 X2. destruct (U i x _ _ NX PX WR V6) as (_ & _ & _ & Y4 & _).
      assert (k = nblocks_h (x_handle x) (snd w) + 1) by (clear - X1 Y4 EB Hal Hk; pose proof (nblocks_h_nonneg (x_handle x) (snd w)); lia).
      split; [congruence|]. rewrite V7. symmetry in V4. apply Z.eqb_eq in V4. exact (proj1 (HBA _ q V1 V4)).
    + split; [|exact K2]. eapply FINAL; [eapply accept_wrq_out; [exact E1|exact PX|exact WR]|]. intros; apply K1; assumption.
  - destruct (opcode =? OP_ERROR); [inv H; split; [apply FIN0|apply closed_finish; [exact V5|discriminate|exact CO]]|]. match type of H with (if ?e then _ else _) = _ => destruct e end; [inv H; auto|]. inv1 H. rename z into b.
    match type of H with (if ?e then _ else _) = _ => destruct e end; [inv H; auto|].
    set (x1 := mkS _ _ _ _ _ _ _ _ _ _ _ _ _ _ _ _ _ _ _ _ _ _) in H.
    assert (S1 : same x x1) by (unfold same, x1; cbn; rewrite ?WR; intuition discriminate).
    match type of H with (if ?e then _ else _) = _ => destruct e end.
    + inv H. change (server_finish v x1 w 0) with (server_finish v x w 0). split; [apply FIN0|]. eapply closed_outcome; [apply (finish_out file (q_name q) v x w w 0 (fun _ => True)); apply adds_refl|exact V5|exact V6|exact CO].
    + inv1 H. destruct p as [[r2 x2] w2]. inv H. destruct (V10 eq_refl) as (V11 & V12 & V13 & _).
      assert (OUT : outcome file (q_name q) v x w (arm0 r x2) w' (fun _ => True)).
      { eapply outcome_from; [exact S1| |intros z Z1; exact Logic.I]. apply outcome_arm0. eapply send_window_inv; [eassumption|exact V11|exact (proj2 (proj2 (proj2 (proj2 (proj2 (proj2 (proj2 (proj2 S1))))))))|reflexivity|exact V8|exact HR|exact V6|exact V12|exact V13]. }
      split; [eapply FINAL; [exact OUT|intros _; congruence]|eapply closed_outcome; [exact OUT|exact V5|exact V6|exact CO]].
Qed.

Lemma poll_slot_u file F B o c hist l v x w now x' w' i q : v_ops v = o -> sinv file o c hist l (snd w) -> nth_error l i = Some x -> is_free x = false -> serves file o c hist (snd w) i x q -> reads_from file (snd w') ->
  poll_slot v x w now = Some (x', w') -> uinv F B l (snd w) -> closed_ok F (snd w) -> uinv F B (set_nth i x' l) (snd w') /\ closed_ok F (snd w').
Proof.
  intros O1 I NX FX SV HR H U CO. pose proof SV as (V1 & V2 & V3 & V4 & V5 & V6 & V7 & V8 & V9 & V10).
  assert (OUT : outcome file (q_name q) v x w x' w' (fun x' => x_write x = false -> rinv (file (q_name q)) x')) by (eapply poll_slot_out; [exact H|exact FX|exact V8|exact HR|exact V6|rewrite O1; exact V10]).
  destruct (x_write x) eqn:WR.
  2:{ split; [eapply ustep; [exact I|exact NX|exact FX|exact SV|exact OUT|exact U|congruence]|eapply closed_outcome; [exact OUT|exact V5|exact V6|exact CO]]. }
  assert (K : (is_free x' = false -> winv (F (x_remote x) (q_name q)) (B (x_remote x) (q_name q)) x' (snd w')) /\ closed_ok F (snd w')).
  { pose proof (U i x _ _ NX FX WR V6) as W. unfold poll_slot in H. cbv zeta in H. rewrite FX in H.
    destruct (x_deadline x =? 0); [inv H; auto|]. destruct (s32 (u32 (now - x_deadline x)) <? 0); [inv H; auto|].
    destruct (c_retries (v_cfg v) <=? x_retries x); [inv H; split; [discriminate|apply closed_finish; [exact V5|discriminate|exact CO]]|].
    inv1 H. destruct p as [x1 w1]. inv H.
    assert (A : x1 = x /\ adds calm w w').
    { rewrite WR in E. destruct (x_optsent x).
      - inv1 E. destruct s as [pkt|]; inv E; (split; [reflexivity|]); [|apply adds_refl]. match goal with |- adds _ _ (snd ?e) => destruct e as [rs w1] eqn:E1 end. eapply send_adds; [exact E1|split; exact Logic.I].
      - inv E. split; [reflexivity|]. match goal with |- adds _ _ (snd ?e) => destruct e as [rs w1] eqn:E1 end. eapply send_adds; [exact E1|split; exact Logic.I]. }
    destruct A as (-> & A). split; [intros _; eapply winv_nio; [exact A|exact W|reflexivity..]|]. eapply closed_nio; [|exact CO]. eapply adds_weak; [|exact A]. unfold calm. tauto. }
  destruct K as (K1 & K2). split; [|exact K2]. eapply ustep; [exact I|exact NX|exact FX|exact SV|exact OUT|exact U|]. intros; apply K1; assumption.
Qed.
Lemma poll_slots_u file F B o c hist v now : v_ops v = o -> forall l done w l' w', poll_slots v l w now = Some (l', w') -> sinv file o c hist (done ++ l) (snd w) -> reads_from file (snd w') -> uinv F B (done ++ l) (snd w) -> closed_ok F (snd w) ->
  uinv F B (done ++ l') (snd w') /\ closed_ok F (snd w').
Proof.
  intros O1. induction l as [|x l IH]; intros done w l' w' H I HR U CO; cbn [poll_slots] in H; [inv H; auto|].
  inv1 H. destruct p as [x1 w1]. inv1 H. destruct p as [l1 w2]. inv H.
  pose proof (poll_slots_ext _ _ _ _ _ _ E0) as X. pose proof (reads_ext _ _ _ X HR) as HR1.
  assert (NX : nth_error (done ++ x :: l) (length done) = Some x) by (rewrite nth_error_app2, Nat.sub_diag by lia; reflexivity).
  assert (ES : forall y, set_nth (length done) y (done ++ x :: l) = done ++ y :: l) by (clear; intros y; induction done as [|z d IH]; cbn; [reflexivity|f_equal; exact IH]).
  assert (K : sinv file (v_ops v) c hist ((done ++ [x1]) ++ l) (snd w1) /\ uinv F B ((done ++ [x1]) ++ l) (snd w1) /\ closed_ok F (snd w1)).
  { rewrite <- app_assoc. cbn [app]. destruct (is_free x) eqn:FX.
    - unfold poll_slot in E. rewrite FX in E. cbv zeta in E. inv E. auto.
    - pose proof I as (IA & _). destruct (IA _ x NX FX) as (q & SV). pose proof SV as (V1 & V2 & V3 & V4 & V5 & V6 & V7 & V8 & V9 & V10). rewrite <- (ES x1). split.
      + eapply step_slot; [exact I|reflexivity|exact NX|exact FX|exact SV|]. eapply poll_slot_out; eassumption.
      + eapply poll_slot_u; [reflexivity|exact I|exact NX|exact FX|exact SV|exact HR1|exact E|exact U|exact CO]. }
  destruct K as (K1 & K2 & K3). destruct (IH _ _ _ _ E0 K1 HR K2 K3) as (B1 & B2). rewrite <- app_assoc in B1. auto.
Qed.

Lemma uploads_reach F B o c l hist v w : uploads F B o c l hist v w -> reach o c l hist v w.
Proof. induction 1; [constructor|eapply r_recv; eassumption|eapply r_poll; eassumption]. Qed.
Lemma agree_mono B c hist op : blocks_agree B c (op :: hist) -> blocks_agree B c hist.
Proof. intros H remote q A W. apply H; [|exact W]. eapply asked_mono; [|exact A]. intros; right; assumption. Qed.
Lemma uploads_inv file F B o c l hist v w : cfg_ok (cfg_defaults c) -> uploads F B o c l hist v w -> blocks_agree B c hist -> sane (snd w) -> reads_from file (snd w) -> uinv F B (v_sess v) (snd w) /\ closed_ok F (snd w).
Proof.
  intros HC R. induction R as [|hist v w local remote buf r v' w' R IH HB HL HON H|hist v w now v' w' R IH H]; intros HA HS HR.
  - split; [|exact Logic.I]. intros [|[|[|[|i]]]] x name peer N Fx; cbn in N; try (injection N as <-; discriminate Fx); destruct i; discriminate.
  - apply agree_mono in HA. pose proof (server_receive_ext _ _ _ _ _ _ _ _ H) as X. pose proof (sane_ext _ _ X HS) as HS1. pose proof (reads_ext _ _ _ X HR) as HR1. destruct (IH HA HS1 HR1) as (A & B1).
    destruct (reach_inv file o c l hist v w HC (uploads_reach _ _ _ _ _ _ _ _ R) HS1 HR1) as (A2 & B2). eapply server_receive_u; eassumption.
  - apply agree_mono in HA. pose proof (server_poll_ext _ _ _ _ _ H) as X. pose proof (sane_ext _ _ X HS) as HS1. pose proof (reads_ext _ _ _ X HR) as HR1. destruct (IH HA HS1 HR1) as (A & B1).
    destruct (reach_inv file o c l hist v w HC (uploads_reach _ _ _ _ _ _ _ _ R) HS1 HR1) as (A2 & B2). unfold server_poll in H. inv1 H. destruct p as [l1 w1]. inv H. cbn [v_sess].
    destruct A2 as (O1 & _). eapply (poll_slots_u file F B o c hist v now O1 (v_sess v) [] w l1 w'); assumption.
Qed.
