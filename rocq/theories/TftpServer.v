(** Invariants of the server. *)
From Verif Require Import Base ListUtil HttpUrl TftpCodec TftpCodecSpec TftpCodecProofs TftpCodecProps Tftp TftpSpec TftpClient TftpServerSpec.
Local Ltac Zify.zify_post_hook ::= Z.to_euclidean_division_equations.

(** ** Events added by a call *)
Definition adds (Q : event -> Prop) (w w' : world) : Prop := exists evs, snd w' = evs ++ snd w /\ Forall Q evs.
Lemma adds_refl Q w : adds Q w w.
Proof. exists []. split; [reflexivity|constructor]. Qed.
Lemma adds_trans Q a b c : adds Q a b -> adds Q b c -> adds Q a c.
Proof. intros (l & A & FA) (m & B & FB). exists (m ++ l). rewrite B, A, app_assoc. split; [reflexivity|apply Forall_app; auto]. Qed.
Lemma adds_weak (Q Q' : event -> Prop) a b : (forall e, Q e -> Q' e) -> adds Q a b -> adds Q' a b.
Proof. intros H (l & A & FA). exists l. split; [exact A|eapply Forall_impl; [exact H|exact FA]]. Qed.
Lemma adds_call (Q : event -> Prop) w ev a w' : call w ev = (a, w') -> Q (ev a) -> adds Q w w'.
Proof. intros H q. apply call_inv in H. exists [ev a]. rewrite H. split; [reflexivity|constructor; [exact q|constructor]]. Qed.

(** What a session may do: send to its peer from its port, and use its own file. *)
Definition own (file : list Z -> list Z) (name : list Z) (x : sess) (e : event) : Prop :=
  match e with
  | ESend l r p _ t => l = x_local x /\ r = x_remote x /\
      (t = 0 -> (exists bl, p = build_ack bl) \/ (exists code msg, build_error 64 code msg = Some p) \/ (x_optsent x = true /\ build_oack (repeat 0 1432) PKT_MAX (x_neg x) (x_oack x) = Some (inl p))) /\
      (t <> 0 -> x_write x = false /\ honest_data (file name) (n_blksize (x_neg x)) t p)
  | EOpen _ _ _ _ _ _ _ => False
  | ERead h _ _ _ _ _ => h = x_handle x /\ x_write x = false
  | EWrite h _ _ _ | EHash h _ _ | EVerify h _ _ => h = x_handle x /\ x_write x = true
  | EClose h _ => h = x_handle x
  end.
(** Same session, later. *)
Definition same (x x' : sess) : Prop :=
  x_remote x' = x_remote x /\ x_neg x' = x_neg x /\ x_handle x' = x_handle x /\ x_local x' = x_local x /\ x_write x' = x_write x /\ x_oack x' = x_oack x /\ (x_optsent x' = true -> x_optsent x = true) /\ is_free x = false /\ is_free x' = false.
Lemma same_refl x : is_free x = false -> same x x.
Proof. unfold same. auto 10. Qed.
Lemma same_trans x y z : same x y -> same y z -> same x z.
Proof. unfold same. intuition congruence. Qed.
Lemma own_same file name x x' e : same x x' -> own file name x' e -> own file name x e.
Proof. intros (A & B & C & D & E & F & G & _). unfold own. rewrite A, B, C, D, E, F. destruct e; auto. intros (H1 & H2 & H3 & H4). split; [exact H1|]. split; [exact H2|]. split; [|exact H4]. intros T. destruct (H3 T) as [X|[X|[X Y]]]; auto. Qed.
(** Events that neither open nor close. *)
Definition nio (e : event) : Prop := match e with EOpen _ _ _ _ _ _ _ | EClose _ _ => False | _ => True end.
Definition onio (file : list Z -> list Z) (name : list Z) (x : sess) (e : event) : Prop := own file name x e /\ nio e.
(** What a call on the session [x] ends with: the session is over and its file closed, or
    it goes on (and [P] holds). *)
Definition outcome (file : list Z -> list Z) (name : list Z) (v : server) (x : sess) (w : world) (x' : sess) (w' : world) (P : sess -> Prop) : Prop :=
  (is_free x' = true /\ exists w1 st, adds (onio file name x) w w1 /\ w' = server_finish v x w1 st) \/
  (same x x' /\ adds (onio file name x) w w' /\ P x').

(** The position of a reading session. *)
Definition pos (F : list Z) (b i off total block : Z) : Prop := off = Z.min ((i - 1) * b) (zlen F) /\ total = off /\ off < 4294967296 /\ block = i mod 65536.
Definition rinv (F : list Z) (x : sess) : Prop :=
  let b := n_blksize (x_neg x) in
  1 <= x_idx x /\ pos F b (x_idx x) (x_off x) (x_total x) (x_next x) /\ (1 <= x_wsidx x \/ (x_optsent x = true /\ x_idx x = 1)) /\
  (1 <= x_wsidx x -> pos F b (x_wsidx x) (x_wsoff x) (x_wstotal x) (x_wsblock x)).

Lemma send_adds (Q : event -> Prop) o w l r p t rc w' : tftp_send o w l r p t = (rc, w') -> (forall rc, Q (ESend l r p rc t)) -> adds Q w w'.
Proof. unfold tftp_send. intros H HQ. inv H; [apply adds_refl|]. eapply adds_call; [eassumption|apply HQ]. Qed.
Lemma error_adds (Q : event -> Prop) o w l r code msg rc w' : send_error o w l r code msg = (rc, w') -> (forall rc p, build_error 64 code msg = Some p -> Q (ESend l r p rc 0)) -> adds Q w w'.
Proof. unfold send_error. intros H HQ. destruct (build_error 64 code msg) eqn:E; [|injection H as <- <-; apply adds_refl]. eapply send_adds; [exact H|]. intros. apply HQ. reflexivity. Qed.
Lemma sfinish_adds (Q : event -> Prop) v x w st : Q (EClose (x_handle x) st) -> adds Q w (server_finish v x w st).
Proof. intros q. unfold server_finish. destruct (has_close (v_ops v) && negb (x_handle x =? 0)); [|apply adds_refl]. destruct (call w (fun _ => EClose (x_handle x) st)) as [a w'] eqn:E. eapply adds_call; [exact E|exact q]. Qed.
Lemma chunk_at (F : list Z) b i off : 0 < b -> 1 <= i -> off = Z.min ((i - 1) * b) (zlen F) -> firstn (Z.to_nat b) (skipn (Z.to_nat off) F) = chunk F b i.
Proof.
  intros Hb Hi ->. unfold chunk. destruct (Z_le_gt_dec ((i - 1) * b) (zlen F)); [rewrite Z.min_l by assumption; reflexivity|]. rewrite Z.min_r by lia. unfold zlen in *. rewrite !skipn_all2 by lia. reflexivity.
Qed.
Lemma build_data_pkt bl d p : 0 <= bl < 65536 -> build_data bl d = Some p -> p = data_pkt bl d.
Proof.
  intros H. unfold build_data. destruct (PKT_MAX <? u16 (4 + zlen d)); [discriminate|]. intros [= <-]. unfold data_pkt, enc16, OP_DATA, u8. cbn [app]. change (3 / 256) with 0. change (3 mod 256) with 3. change (0 mod 256) with 0.
  replace ((bl / 256) mod 256) with (bl / 256) by lia. reflexivity.
Qed.

Definition ext (w w' : world) : Prop := adds (fun _ => True) w w'.
Lemma adds_ext Q w w' : adds Q w w' -> ext w w'.
Proof. apply adds_weak. auto. Qed.
Lemma reads_ext file w w' : ext w w' -> reads_from file (snd w') -> reads_from file (snd w).
Proof. intros (l & E & _) X post pre h off mx d last nm pr Hs. rewrite E, Hs in X. exact (X (l ++ post) pre h off mx d last nm pr ltac:(rewrite <- app_assoc; reflexivity)). Qed.
Lemma sane_ext w w' : ext w w' -> sane (snd w') -> sane (snd w).
Proof. intros (l & E & _) X post pre nm wr hint h size peer Hs. rewrite E, Hs in X. exact (X (l ++ post) pre nm wr hint h size peer ltac:(rewrite <- app_assoc; reflexivity)). Qed.
Lemma live_nio h w w' : adds nio w w' -> live h (snd w') = live h (snd w).
Proof. intros (l & E & F). rewrite E. clear E. induction F as [|e l Q _ IH]; [reflexivity|]. cbn [app]. destruct e; cbn in *; try contradiction; exact IH. Qed.
Lemma window_loop_ext : forall n v x w r x' w', window_loop n v x w = Some (r, x', w') -> ext w w'.
Proof.
  induction n as [|n IH]; intros v x w r x' w' H; cbn [window_loop] in H; [inv H; apply adds_refl|]. cbv zeta in H. destruct (call w _) as [a w1] eqn:EC. assert (X1 : ext w w1) by (eapply adds_call; [exact EC|exact I]).
  destruct (negb (a_rc a =? 0)); [inv H; exact X1|]. inv1 H; [discriminate|]. inv1 H.
  - match type of H with context [send_error ?a ?b ?c ?d ?e ?f] => destruct (send_error a b c d e f) as [? w2] eqn:E2 end. inv H. eapply adds_trans; [exact X1|]. eapply adds_trans; [eapply error_adds; [exact E2|auto]|apply sfinish_adds; exact I].
  - inv1 H; [|inv H; exact X1]. match type of H with context [tftp_send ?a ?b ?c ?d ?e ?f] => destruct (tftp_send a b c d e f) as [rs w2] eqn:E2 end. assert (X2 : ext w w2) by (eapply adds_trans; [exact X1|eapply send_adds; [exact E2|auto]]).
    destruct (negb (rs =? 0)); [inv H; exact X2|]. match type of H with (if ?g then _ else _) = _ => destruct g end; [inv H; exact X2|]. apply IH in H. eapply adds_trans; eassumption.
Qed.
Lemma window_loop_inv file name peer : forall n v x w r x' w', window_loop n v x w = Some (r, x', w') -> is_free x = false -> x_write x = false -> 0 < n_blksize (x_neg x) <= 1428 ->
  reads_from file (snd w') -> live (x_handle x) (snd w) = Some (name, false, peer) -> rinv (file name) x -> 1 <= x_wsidx x ->
  outcome file name v x w x' w' (rinv (file name)).
Proof.
  induction n as [|n IH]; intros v x w r x' w' H HFr HW HB HR HL HI HWS.
  { cbn in H. inv H. right. split; [unfold same, window_done; cbn; auto 10|]. split; [apply adds_refl|exact HI]. }
  pose proof (window_loop_ext _ _ _ _ _ _ _ H) as EXT0.
  cbn [window_loop] in H. cbv zeta in H. destruct (call w _) as [a w1] eqn:EC. pose proof (call_inv _ _ _ _ EC) as LC.
  assert (A1 : adds (onio file name x) w w1) by (eapply adds_call; [exact EC|split; cbn; auto]).
  destruct (Z.eqb_spec (a_rc a) 0) as [R|R]; cbn [negb] in H; [|inv H; right; split; [apply same_refl; assumption|auto]].
  inv1 H; [discriminate H|]. apply Z.ltb_ge in E. set (bs := n_blksize (x_neg x)) in *. set (dl := zlen (a_data a)) in *.
  destruct HI as (P1 & P2 & P3 & P4). pose proof P2 as (Q1 & Q2 & Q3 & Q4).
  assert (HD : reads_from file (snd w1) -> a_data a = chunk (file name) bs (x_idx x)).
  { intros HR1. rewrite LC, R in HR1. rewrite (HR1 [] _ _ _ _ _ _ _ _ eq_refl HL). apply chunk_at; [lia|exact P1|exact Q1]. }
  inv1 H.
  { destruct (send_error (v_ops v) w1 (x_local x) (x_remote x) 3 m_toolarge) as [? w2] eqn:E2. inv H. left. split; [reflexivity|]. exists w2, ERR_SIZE. split; [|reflexivity]. eapply adds_trans; [exact A1|].
    eapply error_adds; [exact E2|]. intros rc p EP. split; [|exact I]. cbn. split; [reflexivity|]. split; [reflexivity|]. split; [intros _; right; left; eauto|tauto]. }
  apply orb_false_iff in E0. destruct E0 as (G1 & _). apply Z.ltb_ge in G1.
  inv1 H; [|inv H; right; split; [apply same_refl; assumption|split; [exact A1|split; auto]]].
  rename l into pkt. destruct (tftp_send (v_ops v) w1 (x_local x) (x_remote x) pkt (x_idx x)) as [rs w2] eqn:E2.
  assert (X12 : ext w1 w2) by (eapply send_adds; [exact E2|auto]).
  assert (EXT : ext w1 w'). { destruct (negb (rs =? 0)); [inv H; exact X12|]. destruct ((dl <? bs) || a_last a); [inv H; exact X12|]. apply window_loop_ext in H. eapply adds_trans; eassumption. }
  specialize (HD (reads_ext _ _ _ EXT HR)).
  assert (A2 : adds (onio file name x) w1 w2).
  { eapply send_adds; [exact E2|]. intros rc. split; [|exact I]. cbn. split; [reflexivity|]. split; [reflexivity|]. split; [lia|]. intros _. split; [exact HW|]. split; [exact P1|]. apply build_data_pkt in E0; [|lia]. rewrite E0, HD, Q4. reflexivity. }
  pose proof (adds_trans _ _ _ _ A1 A2) as A12.
  destruct (negb (rs =? 0)); [inv H; right; split; [apply same_refl; assumption|split; [exact A12|split; auto]]|].
  set (x1 := mkS _ _ _ _ _ _ _ _ _ _ _ _ _ _ _ _ _ _ _ _ _ _) in H.
  assert (LD : dl = Z.max 0 (Z.min bs (zlen (file name) - (x_idx x - 1) * bs))) by (unfold dl; rewrite HD; apply chunk_len; lia).
  assert (S1 : same x x1) by (unfold same, x1; cbn; auto 10).
  assert (I1 : rinv (file name) x1).
  { unfold rinv, x1. cbn [x_idx x_off x_total x_next x_wsidx x_optsent x_neg x_wsoff x_wstotal x_wsblock]. fold bs. split; [lia|]. assert (T : x_off x + dl < 4294967296) by (unfold u32 in G1; rewrite Z.mod_small in G1 by lia; lia).
    assert (OO : 0 <= x_off x) by (pose proof (zlen_nonneg (file name)); nia). assert (IB : 0 <= (x_idx x - 1) * bs) by nia.
    unfold pos at 1. replace ((x_idx x + 1 - 1) * bs) with ((x_idx x - 1) * bs + bs) by ring.
    split; [split; [|split; [|split]]|split; [left; exact HWS|exact P4]]; [unfold u32; rewrite Z.mod_small by lia; clear - Q1 LD HB IB; fold bs in Q1; clearbody bs dl; set (k := (x_idx x - 1) * bs) in *; clearbody k; pose proof (zlen_nonneg (file name)); lia|unfold u32; rewrite Q2; reflexivity|unfold u32; lia|unfold u16; rewrite Q4; apply Z.add_mod_idemp_l; lia]. }
  destruct ((dl <? bs) || a_last a).
  - inv H. right. split; [unfold same, window_done; cbn; auto 10|]. split; [exact A12|exact I1].
  - assert (L2 : live (x_handle x1) (snd w2) = Some (name, false, peer)).
    { change (x_handle x1) with (x_handle x). rewrite (live_nio _ w w2); [exact HL|]. eapply adds_trans; [eapply adds_call; [exact EC|exact I]|eapply send_adds; [exact E2|intros; exact I]]. }
    pose proof (IH v x1 w2 r x' w' H HFr HW HB HR L2 I1 HWS) as K.
    destruct K as [(K1 & w5 & st & K2 & K3)|(K1 & K2 & K3)]; [left; split; [exact K1|]; exists w5, st; split; [|exact K3]|right; split; [exact (same_trans _ _ _ S1 K1)|]; split; [|exact K3]].
    all: eapply adds_trans; [exact A12|]; eapply adds_weak; [|exact K2]; intros e (X1 & X2); split; [eapply own_same; [exact S1|exact X1]|exact X2].
Qed.

Lemma send_window_inv file name peer v x w r x' w' : send_window v x w = Some (r, x', w') -> has_read (v_ops v) = true -> is_free x = false -> x_write x = false -> 0 < n_blksize (x_neg x) <= 1428 ->
  reads_from file (snd w') -> live (x_handle x) (snd w) = Some (name, false, peer) ->
  1 <= x_idx x -> pos (file name) (n_blksize (x_neg x)) (x_idx x) (x_off x) (x_total x) (x_next x) -> outcome file name v x w x' w' (rinv (file name)).
Proof.
  intros H HRd HF HW HB HR HL HI HP. unfold send_window in H. rewrite HRd in H. cbn [negb] in H.
  apply (window_loop_inv file name peer) in H; [|assumption|assumption|assumption|assumption|assumption| |assumption].
  - assert (SS : forall y, same (mkS (x_remote x) (x_neg x) (x_handle x) (x_off x) (x_total x) (x_deadline x) (x_off x) (x_total x) (x_next x) (x_final x) (x_local x)
         (x_next x) (x_acked x) (x_wcount x) (x_retries x) (x_write x) (x_optsent x) (x_oack x) (x_final x) (x_state x) (x_idx x) (x_idx x)) y -> same x y) by (intros y; unfold same; cbn; auto).
    destruct H as [(K1 & w5 & st & K2 & K3)|(K1 & K2 & K3)]; [left; split; [exact K1|]; exists w5, st; split; [exact K2|exact K3]|right; split; [apply SS; exact K1|]; split; [exact K2|exact K3]].
  - unfold rinv. cbn. auto.
Qed.

Lemma finish_out file name v x w w1 st (P : sess -> Prop) : adds (onio file name x) w w1 -> outcome file name v x w sess0 (server_finish v x w1 st) P.
Proof. intros A. left. split; [reflexivity|]. exists w1, st. auto. Qed.
Lemma own_ack file name x l r bl rc : l = x_local x -> r = x_remote x -> onio file name x (ESend l r (build_ack bl) rc 0).
Proof. intros -> ->. split; [|exact I]. cbn. split; [reflexivity|]. split; [reflexivity|]. split; [intros _; left; eauto|tauto]. Qed.
Lemma own_err file name x l r code msg p rc : l = x_local x -> r = x_remote x -> build_error 64 code msg = Some p -> onio file name x (ESend l r p rc 0).
Proof. intros -> -> E. split; [|exact I]. cbn. split; [reflexivity|]. split; [reflexivity|]. split; [intros _; right; left; eauto|tauto]. Qed.
Lemma accept_wrq_out file name v x w block data r x' w' : accept_wrq v x w block data = (r, x', w') -> is_free x = false -> x_write x = true -> outcome file name v x w x' w' (fun _ => True).
Proof.
  intros H HF HW. unfold accept_wrq in H. cbv beta zeta in H. destruct (block =? x_next x).
  2:{ destruct ((block =? x_acked x) || (block =? u16 (x_next x - 1))); [|inv H; right; split; [apply same_refl; assumption|split; [apply adds_refl|exact I]]].
    match type of H with (let '(_, _) := ?e in _) = _ => destruct e as [rs w1] eqn:E1 end. inv H. right. split; [apply same_refl; assumption|]. split; [|exact I]. eapply send_adds; [exact E1|]. intros. apply own_ack; reflexivity. }
  cbn [x_remote x_neg x_handle x_off x_total x_deadline x_wsoff x_wstotal x_wsblock x_wsfinal x_local x_next x_acked x_wcount x_retries x_write x_optsent x_oack x_final x_state x_idx x_wsidx] in H.
  match type of H with (if ?e then _ else _) = _ => destruct e end.
  { match type of H with (let '(_, _) := ?e in _) = _ => destruct e as [rs w1] eqn:E1 end. inv H. apply (finish_out file name v x w w1). eapply error_adds; [exact E1|]. intros. eapply own_err; [reflexivity|reflexivity|eassumption]. }
  match type of H with (let '(_, _) := ?e in _) = _ => destruct e as [a w1] eqn:E1 end.
  assert (A1 : adds (onio file name x) w w1) by (eapply adds_call; [exact E1|split; cbn; auto]).
  destruct (negb (a_rc a =? 0)); [inv H; apply (finish_out file name v x w w1); exact A1|].
  match type of H with (let '(_, _) := ?e in _) = _ => destruct e as [rh w2] eqn:E2 end.
  assert (A2 : adds (onio file name x) w w2).
  { eapply adds_trans; [exact A1|]. match type of E2 with (if ?e then _ else _) = _ => destruct e end; [|inv E2; apply adds_refl]. match type of E2 with (let '(_, _) := ?e in _) = _ => destruct e as [a2 w2'] eqn:E3 end. inv E2. eapply adds_call; [exact E3|split; cbn; auto]. }
  destruct (negb (rh =? 0)); [inv H; apply (finish_out file name v x w w2); exact A2|].
  assert (FIN : forall y w3 w4 x4 r4, x_handle y = x_handle x -> same x y -> adds (onio file name x) w w3 ->
    (if zlen data <? n_blksize (x_neg x) then
        let '(r, w) := if has_verify (v_ops v) then let '(a, w) := call w3 (fun a => EVerify (x_handle y) (x_total y) (a_rc a)) in (a_rc a, w) else (0, w3) in
        if negb (r =? 0) then (ERR_VERIFY, sess0, server_finish v y w ERR_VERIFY) else (0, sess0, server_finish v y w 0)
      else (0, y, w3)) = (r4, x4, w4) -> outcome file name v x w x4 w4 (fun _ => True)).
  { intros y w3 w4 x4 r4 EY SY AY HY. destruct (zlen data <? n_blksize (x_neg x)); [|inv HY; right; split; [exact SY|split; [exact AY|exact I]]].
    match type of HY with (let '(_, _) := ?e in _) = _ => destruct e as [rv w5] eqn:E5 end.
    assert (A5 : adds (onio file name x) w w5). { eapply adds_trans; [exact AY|]. destruct (has_verify (v_ops v)); [|inv E5; apply adds_refl]. match type of E5 with (let '(_, _) := ?e in _) = _ => destruct e as [a2 w2'] eqn:E3 end. inv E5. eapply adds_call; [exact E3|split; cbn; auto]. }
    assert (FE : forall st, server_finish v y w5 st = server_finish v x w5 st) by (intros; unfold server_finish; rewrite EY; reflexivity).
    destruct (negb (rv =? 0)); inv HY; rewrite FE; apply finish_out; exact A5. }
  match type of H with (if ?e then _ else _) = _ => destruct e end.
  - match type of H with (let '(_, _) := ?e in _) = _ => destruct e as [rs w3] eqn:E3 end. assert (A3 : adds (onio file name x) w w3) by (eapply adds_trans; [exact A2|]; eapply send_adds; [exact E3|]; intros; apply own_ack; reflexivity).
    destruct (negb (rs =? 0)); [inv H; right; split; [|split; [exact A3|exact I]]; unfold same; cbn; auto 10; intuition discriminate|].
    eapply FIN; [| |exact A3|exact H]; [reflexivity|]. unfold same; cbn; intuition discriminate.
  - eapply FIN; [| |exact A2|exact H]; [reflexivity|]. unfold same; cbn; intuition discriminate.
Qed.

Lemma poll_slot_out file name peer v x w now x' w' : poll_slot v x w now = Some (x', w') -> is_free x = false -> 0 < n_blksize (x_neg x) <= 1428 -> reads_from file (snd w') ->
  live (x_handle x) (snd w) = Some (name, x_write x, peer) -> (x_write x = false -> has_read (v_ops v) = true /\ rinv (file name) x) ->
  outcome file name v x w x' w' (fun x' => x_write x = false -> rinv (file name) x').
Proof.
  intros H HF HB HR HL HI. unfold poll_slot in H. cbv zeta in H. rewrite HF in H.
  destruct (x_deadline x =? 0); [inv H; right; split; [unfold same, set_xdeadline; cbn; auto 10|]; split; [apply adds_refl|]; intros W; exact (proj2 (HI W))|].
  destruct (s32 (u32 (now - x_deadline x)) <? 0); [inv H; right; split; [apply same_refl; assumption|split; [apply adds_refl|intros W; exact (proj2 (HI W))]]|].
  destruct (c_retries (v_cfg v) <=? x_retries x); [inv H; apply finish_out; apply adds_refl|].
  inv1 H. destruct p as [x1 w1]. inv H.
  assert (K : outcome file name v x w x1 w' (fun x' => x_write x = false -> rinv (file name) x')).
  { destruct (x_optsent x) eqn:OS.
    - inv1 E. destruct s as [pkt|]; inv E; (right; split; [apply same_refl; assumption|split; [|intros W; exact (proj2 (HI W))]]); [|apply adds_refl].
      destruct (tftp_send (v_ops v) w (x_local x1) (x_remote x1) pkt 0) as [rs w1] eqn:E1. eapply send_adds; [exact E1|]. intros. split; [|exact I]. cbn. split; [reflexivity|]. split; [reflexivity|]. split; [auto|tauto].
    - destruct (x_write x) eqn:WR.
      + inv E. right. split; [apply same_refl; assumption|]. split; [|discriminate]. destruct (tftp_send (v_ops v) w (x_local x1) (x_remote x1) (build_ack (x_acked x1)) 0) as [rs w1] eqn:E1. eapply send_adds; [exact E1|]. intros. apply own_ack; reflexivity.
      + inv1 E. destruct p as [[r0 x2] w2]. inv E. destruct (HI eq_refl) as (HRd & I1 & I2 & I3 & I4). rewrite OS in I3. assert (WS : 1 <= x_wsidx x) by (destruct I3 as [?|[? _]]; [assumption|discriminate]).
        apply (send_window_inv file name peer) in E0; [|first [assumption|reflexivity]..|exact (I4 WS)].
        match type of E0 with outcome _ _ _ ?y _ _ _ _ => assert (SY : same x y) by (unfold same; cbn; rewrite WR, OS; auto 10); set (y0 := y) in * end.
        assert (AW : forall a b, adds (onio file name y0) a b -> adds (onio file name x) a b) by (intros a b; apply adds_weak; intros e (X1 & X2); split; [eapply own_same; [exact SY|exact X1]|exact X2]).
        destruct E0 as [(K1 & w5 & st & K2 & K3)|(K1 & K2 & K3)]; [left; split; [exact K1|]; exists w5, st; split; [apply AW; exact K2|exact K3]|right; split; [exact (same_trans _ _ _ SY K1)|split; [apply AW; exact K2|intros _; exact K3]]]. }
  destruct K as [(K1 & w5 & st & K2 & K3)|(K1 & K2 & K3)]; [left; split; [exact K1|]; eauto|right; split; [|split; [exact K2|]]].
  - unfold same in *. cbn. exact K1.
  - intros W. exact (K3 W).
Qed.
