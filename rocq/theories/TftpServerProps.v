(** C32 (server side), C60, C61: TFTP server. *)
From Verif Require Import Base ListUtil HttpUrl TftpCodec TftpCodecSpec TftpCodecProofs TftpCodecProps Tftp TftpSpec TftpClient TftpServerSpec TftpServer TftpServerInv TftpUpload.
Local Ltac Zify.zify_post_hook ::= Z.to_euclidean_division_equations.

(** ** Which packets are DATA *)
Lemma mwrite_keep (r m : list Z) a b pos bs : mwrite (a :: b :: r) pos bs = Some m -> 2 <= pos -> exists r', m = a :: b :: r'.
Proof.
  intros H Hp. unfold mwrite in H. destruct ((0 <=? pos) && (pos + zlen bs <=? zlen (a :: b :: r))); [|discriminate]. injection H as <-.
  replace (Z.to_nat pos) with (S (S (Z.to_nat (pos - 2)))) by lia. cbn [firstn app]. eauto.
Qed.
Lemma maybe_keep cond key v bit max r a b off opts err st : maybe_opt cond key v bit max (a :: b :: r, off, opts, err) = Some st -> 2 <= off -> max <= 65535 -> exists r' off' o' e', st = (a :: b :: r', off', o', e') /\ 2 <= off'.
Proof.
  unfold maybe_opt. intros H Ho Hm. destruct (negb (err =? 0)); [injection H as <-; eauto 8|]. destruct cond; [|injection H as <-; eauto 8].
  unfold append_opt in H. cbv zeta in H. pose proof (zlen_nonneg key). pose proof (zlen_nonneg (utoa 16 v)). destruct (Z.ltb_spec max (off + (zlen key + 1) + (zlen (utoa 16 v) + 1))); cbn [obind] in H; [injection H as <-; eauto 8|].
  destruct (mwrite _ off _) as [m|] eqn:E1; cbn [obind] in H; [|discriminate]. apply mwrite_keep in E1; [|exact Ho]. destruct E1 as (r1 & ->).
  destruct (mwrite (a :: b :: r1) _ _) as [m|] eqn:E2; cbn [obind] in H; [|discriminate]. apply mwrite_keep in E2; [|unfold u16; lia]. destruct E2 as (r2 & ->). injection H as <-. eexists _, _, _, _. split; [reflexivity|]. unfold u16. lia.
Qed.
Lemma oack_head g opts p : build_oack (repeat 0 1432) PKT_MAX g opts = Some (inl p) -> exists r, p = 0 :: 6 :: r.
Proof.
  unfold build_oack. intros H. cbv zeta in H. destruct (mwrite (repeat 0 1432) 0 (enc16 OP_OACK)) as [m|] eqn:E0; cbn [obind] in H; [|discriminate].
  assert (exists r, m = 0 :: 6 :: r) as (r & ->).
  { unfold mwrite in E0. match type of E0 with (if ?g then _ else _) = _ => destruct g end; [|discriminate]. injection E0 as <-. eexists. reflexivity. }
  unfold PKT_MAX in H. change (4 + MAX_BLKSIZE) with 1432 in H.
  repeat match type of H with obind (maybe_opt ?a ?b ?c ?d ?e ?f) _ = _ => let E := fresh "E" in destruct (maybe_opt a b c d e f) as [?|] eqn:E; cbn [obind] in H; [|discriminate H]; apply maybe_keep in E; [|lia|lia]; let r := fresh "r" in let o := fresh "o" in let p := fresh "p" in let e := fresh "e" in let Ho := fresh "Ho" in destruct E as (r & o & p & e & -> & Ho) end.
  match type of H with (if ?g then _ else _) = _ => destruct g end; [discriminate|]. match type of H with obind (mread ?a ?b ?c) _ = _ => destruct (mread a b c) as [q|] eqn:E; cbn [obind] in H; [|discriminate] end. injection H as <-.
  unfold mread in E. match type of E with (if ?g then _ else _) = _ => destruct g end; [|discriminate]. injection E as <-. change (Z.to_nat 0) with 0%nat. cbn [skipn].
  match goal with |- context [firstn (Z.to_nat ?k)] => replace (Z.to_nat k) with (S (S (Z.to_nat (k - 2)))) by lia end. cbn [firstn]. eauto.
Qed.
Lemma not_data_ack b : ~ is_data (build_ack b).
Proof. intros (x & d & E & L). discriminate E. Qed.
Lemma not_data_err code msg p : build_error 64 code msg = Some p -> ~ is_data p.
Proof. unfold build_error. intros H. match type of H with (if ?g then _ else _) = _ => destruct g end; [discriminate|]. injection H as <-. intros (x & d & E & L). discriminate E. Qed.

(** The range of the C types. *)
Definition cfg_typed (c : cfg) : Prop := 0 <= c_blksize c <= 65535 /\ 0 <= c_timeout c <= 65535 /\ 0 <= c_window c <= 65535 /\ 0 <= c_maximg c <= 4294967295.
Lemma typed_ok c : cfg_typed c -> cfg_ok (cfg_defaults c).
Proof. intros (A & B & C & D). apply cfg_defaults_ok; assumption. Qed.

(** C32, server: every DATA packet ever sent to a peer is a block, with the right
    number, of the file that this peer asked to read, cut into blocks of the size that
    was negotiated - for every history of packets, polls and callback answers. *)
Theorem tftp_server_data_honest : forall file o c l hist v w local r p rc t,
  cfg_typed c -> reach o c l hist v w -> sane (snd w) -> reads_from file (snd w) ->
  In (ESend local r p rc t) (snd w) -> is_data p ->
  exists q i, asked_by hist r q /\ q_op q = OP_RRQ /\ honest_data (file (q_name q)) (blk_of c q) i p.
Proof.
  intros file o c l hist v w local r p rc t HC R HS HR HI HD. destruct (reach_inv file o c l hist v w (typed_ok c HC) R HS HR) as (_ & _ & _ & S & _).
  rewrite Forall_forall in S. specialize (S _ HI). cbn in S. destruct S as (S1 & S2). destruct (Z.eq_dec t 0) as [T|T].
  - exfalso. destruct (S1 T) as [(bl & ->)|[(code & msg & E)|(g & q & _ & _ & E)]]; [exact (not_data_ack _ HD)|exact (not_data_err _ _ _ E HD)|]. apply oack_head in E. destruct E as (s & ->). destruct HD as (x & d & E & _). discriminate E.
  - destruct (S2 T) as (q & A & B & C). exists q, t. auto.
Qed.
Print Assumptions tftp_server_data_honest.

Lemma closed_split F log : closed_ok F log -> forall post pre h name peer, log = post ++ EClose h 0 :: pre -> live h pre = Some (name, true, peer) -> stored_h h pre = Some (F peer name).
Proof.
  induction log as [|e r IH]; intros C post pre h name peer E L; [destruct post; discriminate|]. destruct post as [|e' post]; cbn [app] in E; injection E as -> ->.
  - cbn in C. exact (proj1 C eq_refl _ _ L).
  - eapply IH; [|reflexivity|exact L]. destruct e'; try exact C. exact (proj2 C).
Qed.
(** C32, server: an upload (write request) by a peer that cuts the content into blocks at
    least as large as the server takes for full ones. At any time the file holds the
    first blocks of the content, in order, without gap or overlap; when the file is
    closed with success it holds exactly the content. *)
Theorem tftp_server_stores : forall file F B o c l hist v w,
  cfg_typed c -> uploads F B o c l hist v w -> blocks_agree B c hist -> sane (snd w) -> reads_from file (snd w) ->
  (has_close o = true -> forall h name peer, live h (snd w) = Some (name, true, peer) ->
     stored_h h (snd w) = Some (firstn (Z.to_nat (nblocks_h h (snd w) * B peer name)) (F peer name))) /\
  (forall post pre h name peer, snd w = post ++ EClose h 0 :: pre -> live h pre = Some (name, true, peer) -> stored_h h pre = Some (F peer name)).
Proof.
  intros file F B o c l hist v w HC R HA HS HR. destruct (uploads_inv file F B o c l hist v w (typed_ok c HC) R HA HS HR) as (U & CO).
  destruct (reach_inv file o c l hist v w (typed_ok c HC) (uploads_reach _ _ _ _ _ _ _ _ R) HS HR) as (_ & I1 & _ & _ & _ & I5).
  split; [|intros post pre h name peer E L; eapply closed_split; eassumption].
  intros HCl h name peer L. destruct (I5 HCl h ltac:(congruence)) as (i & x & N & Fx & <-). destruct (I1 i x N Fx) as (q & S1 & S2 & S3 & S4 & S5 & S6 & _). rewrite L in S6. injection S6 as W1 W2 W3.
  exact (proj1 (U i x name peer N Fx (eq_sym W2) L)).
Qed.
Print Assumptions tftp_server_stores.

(** ** C61: files *)
Lemma io_split log : io_ok log -> forall post e pre, log = post ++ e :: pre -> use_ok e pre.
Proof. induction log as [|a r IH]; intros H post e pre E; [destruct post; discriminate|]. destruct post as [|e' post]; cbn [app] in E; injection E as -> ->; [exact (proj1 H)|eapply IH; [exact (proj2 H)|reflexivity]]. Qed.
(** C61: the server reads only from handles open for reading, writes, hashes and
    verifies only handles open for writing, and closes only open handles (so each opened
    handle is closed at most once); the handles open at any time are those of the active
    sessions, one each, at most four. *)
Theorem tftp_server_files : forall file o c l hist v w,
  cfg_typed c -> reach o c l hist v w -> sane (snd w) -> reads_from file (snd w) ->
  (forall post e pre, snd w = post ++ e :: pre -> match e with
     | ERead h _ _ _ _ _ => exists n p, live h pre = Some (n, false, p)
     | EWrite h _ _ _ | EHash h _ _ | EVerify h _ _ => exists n p, live h pre = Some (n, true, p)
     | EClose h _ => live h pre <> None
     | _ => True end) /\
  (forall i x, nth_error (v_sess v) i = Some x -> is_free x = false -> exists n, live (x_handle x) (snd w) = Some (n, x_write x, x_remote x)) /\
  (forall i j x y, nth_error (v_sess v) i = Some x -> nth_error (v_sess v) j = Some y -> is_free x = false -> is_free y = false -> i <> j -> x_handle x <> x_handle y) /\
  (has_close o = true -> forall h, live h (snd w) <> None -> exists i x, nth_error (v_sess v) i = Some x /\ is_free x = false /\ x_handle x = h) /\
  length (v_sess v) = 4%nat.
Proof.
  intros file o c l hist v w HC R HS HR. destruct (reach_inv file o c l hist v w (typed_ok c HC) R HS HR) as ((_ & _ & _ & _ & L4) & I1 & I2 & I3 & I4 & I5).
  split; [|split; [|split; [|split; [exact I5|exact L4]]]].
  - intros post e pre E. pose proof (io_split _ I4 _ _ _ E) as U. destruct e; exact U.
  - intros i x N Fx. destruct (I1 i x N Fx) as (q & _ & _ & _ & _ & _ & S6 & _). eauto.
  - intros i j x y N1 N2 F1 F2 D. exact (proj2 (I2 i j x y N1 N2 F1 F2 D)).
Qed.
Print Assumptions tftp_server_files.

(** ** C60: sessions do not disturb each other *)
(** The event [e], after [pre], concerns the peer [r]. *)
Definition concerns (r : endpoint) (pre : list event) (e : event) : Prop :=
  match e with
  | ESend _ to _ _ _ => to = r
  | EOpen _ _ _ _ _ _ peer => peer = r
  | ERead h _ _ _ _ _ | EWrite h _ _ _ | EHash h _ _ | EVerify h _ _ | EClose h _ => exists n wr, live h pre = Some (n, wr, r)
  end.
(** All events from log [a] to log [b] do. *)
Definition only_for (r : endpoint) (a b : list event) : Prop := exists evs, b = evs ++ a /\ forall post e pre, evs = post ++ e :: pre -> concerns r (pre ++ a) e.
Lemma only_refl r a : only_for r a a.
Proof. exists []. split; [reflexivity|]. intros [|? ?] ? ? E; discriminate E. Qed.
Lemma only_trans r a b c : only_for r a b -> only_for r b c -> only_for r a c.
Proof.
  intros (l & -> & A) (m & -> & B). exists (m ++ l). split; [apply app_assoc|]. intros post e pre E.
  assert (X : (exists k, m = post ++ e :: k /\ pre = k ++ l) \/ (exists k, l = k ++ e :: pre /\ post = m ++ k)).
  { clear - E. revert post E. induction m as [|y m IH]; intros post E; [right; exists post; auto|]. destruct post as [|z post]; cbn [app] in E; injection E as -> E; [left; exists m; auto|]. destruct (IH _ E) as [(k & -> & ->)|(k & -> & ->)]; [left|right]; exists k; auto. }
  destruct X as [(k & E1 & ->)|(k & E1 & ->)]; [|eapply A; exact E1]. rewrite <- app_assoc. eapply B; exact E1.
Qed.
Lemma only_one r a e : concerns r a e -> only_for r a (e :: a).
Proof. intros C. exists [e]. split; [reflexivity|]. intros [|z post] e' pre E; cbn in E; [injection E as <- <-; exact C|]. injection E as _ E. destruct post; discriminate E. Qed.
Lemma only_onio file name x (w w' : world) n wr : adds (onio file name x) w w' -> live (x_handle x) (snd w) = Some (n, wr, x_remote x) -> only_for (x_remote x) (snd w) (snd w').
Proof.
  intros (l & E & F) L. rewrite E. clear E. induction F as [|e l Q F IH]; [apply only_refl|]. cbn [app]. eapply only_trans; [exact IH|]. apply only_one. destruct Q as (Q1 & Q2).
  destruct e; cbn in *; try contradiction; [exact (proj1 (proj2 Q1))|..]; destruct Q1 as (-> & _); rewrite (live_onio _ _ _ _ _ _ F), L; eauto.
Qed.
Lemma only_outcome file name v x (w w' : world) x' n wr P : outcome file name v x w x' w' P -> x_handle x <> 0 -> live (x_handle x) (snd w) = Some (n, wr, x_remote x) -> only_for (x_remote x) (snd w) (snd w').
Proof.
  intros [(_ & w1 & st & K2 & ->)|(_ & K2 & _)] H0 L; [|eapply only_onio; eassumption]. pose proof (only_onio _ _ _ _ _ _ _ K2 L) as X. rewrite (sfinish_log _ _ _ _ H0). destruct (has_close (v_ops v)); [|exact X].
  eapply only_trans; [exact X|]. apply only_one. cbn. destruct K2 as (l2 & E & G). rewrite E, (live_onio _ _ _ _ _ _ G), L. eauto.
Qed.
Lemma error_only o (w w' : world) l r code msg rc : send_error o w l r code msg = (rc, w') -> only_for r (snd w) (snd w').
Proof.
  intros H. assert (A : adds (fun e => match e with ESend _ to _ _ _ => to = r | _ => False end) w w') by (eapply error_adds; [exact H|reflexivity]). destruct A as (evs & E & F). exists evs. split; [exact E|]. intros post e pre X. rewrite X in F. apply Forall_app in F. destruct F as (_ & F). apply Forall_inv in F. destruct e; try contradiction; exact F.
Qed.
Lemma send_only o (w w' : world) l r p t rc : tftp_send o w l r p t = (rc, w') -> only_for r (snd w) (snd w').
Proof.
  intros H. assert (A : adds (fun e => match e with ESend _ to _ _ _ => to = r | _ => False end) w w') by (eapply send_adds; [exact H|reflexivity]). destruct A as (evs & E & F). exists evs. split; [exact E|]. intros post e pre X. rewrite X in F. apply Forall_app in F. destruct F as (_ & F). apply Forall_inv in F. destruct e; try contradiction; exact F.
Qed.
Lemma start_request_only file o c hist v w remote buf q r v' w' : cfg_ok (cfg_defaults c) -> head o c v -> sinv file o c hist (v_sess v) (snd w) -> Forall byte buf -> zlen buf <= 65535 -> parse_request buf = Some (inl q) ->
  start_request v w remote q = Some (r, v', w') -> sane (snd w') -> reads_from file (snd w') ->
  only_for remote (snd w) (snd w') /\ (forall j y, nth_error (v_sess v) j = Some y -> is_free y = false -> nth_error (v_sess v') j = Some y).
Proof.
  intros HC HD I HB HL HP H HS HR. pose proof HD as (O1 & O2 & O3 & O4 & O5). unfold start_request in H. cbv beta zeta in H.
  destruct (parse_range buf q HB HL HP) as (R0 & R1 & R2 & R3 & R4 & R5).
  destruct (alloc_session v) as [i|] eqn:AL.
  2:{ destruct (send_error (v_ops v) w (v_listen v) remote 0 m_slots) as [rs w1] eqn:E1. inv H. split; [eapply error_only; exact E1|auto]. }
  apply find_idx_some in AL. destruct AL as (x0 & _ & N0 & F0). rewrite Nat.sub_0_r in N0. assert (Li : (i < length (v_sess v))%nat) by (apply nth_error_Some; congruence).
  assert (OTH : forall x', (forall j y, nth_error (v_sess v) j = Some y -> is_free y = false -> nth_error (v_sess (put v i x')) j = Some y)).
  { intros x' j y Ny Fy. rewrite put_sess, set_nth_other; [exact Ny|]. intros <-. congruence. }
  match type of H with (if ?e then _ else _) = _ => destruct e end.
  { match type of H with (let '(_, _) := ?e in _) = _ => destruct e as [rs w1] eqn:E1 end. inv H. split; [eapply error_only; exact E1|apply OTH]. }
  match type of H with (if ?e then _ else _) = _ => destruct e eqn:IO end.
  { match type of H with (let '(_, _) := ?e in _) = _ => destruct e as [rs w1] eqn:E1 end. inv H. split; [eapply error_only; exact E1|apply OTH]. }
  match type of H with (let '(_, _) := call ?w ?e in _) = _ => destruct (call w e) as [a w1] eqn:E1 end.
  apply call_inv in E1. assert (X1 : only_for remote (snd w) (snd w1)) by (rewrite E1; apply only_one; reflexivity).
  destruct (Z.eqb_spec (a_rc a) 0) as [Ra|Ra]; cbn [negb] in H.
  2:{ match type of H with (let '(_, _) := ?e in _) = _ => destruct e as [rs w2] eqn:E2 end. inv H. split; [eapply only_trans; [exact X1|eapply error_only; exact E2]|apply OTH]. }
  rewrite Ra in E1. set (wr := q_op q =? OP_WRQ) in *.
  match type of H with context [mkS remote ?g _ _ _ _ _ _ _ _ _ _ _ _ _ _ _ _ _ _ _ _] => set (g1 := g) in * end.
  assert (GB : n_blksize g1 = blk_of c q) by (unfold g1, blk_of; rewrite land_bit0, O2; destruct (negb wr && negb (Z.land (q_opts q) OPT_TSIZE =? 0)); reflexivity).
  assert (GR : 0 < n_blksize g1 <= 1428) by (rewrite GB; unfold blk_of; destruct HC as (C1 & _); destruct (Z.testbit (q_opts q) 0); [specialize (R2 eq_refl); lia|lia]).
  set (loc := u16 (v_base v + Z.of_nat i)) in *.
  assert (LV : live (a_handle a) (snd w1) = Some (q_name q, wr, remote)) by (rewrite E1; cbn; rewrite Z.eqb_refl; reflexivity).
  assert (EXT : ext w1 w').
  { destruct (negb (q_opts q =? 0)); [|destruct wr].
    - inv1 H. destruct s as [pkt|e]; [|inv H; apply sfinish_adds; exact Logic.I]. match type of H with (let '(_, _) := ?e in _) = _ => destruct e as [rs w2] eqn:E2 end. inv H. eapply send_adds; [exact E2|auto].
    - match type of H with (let '(_, _) := ?e in _) = _ => destruct e as [rs w2] eqn:E2 end. inv H. eapply send_adds; [exact E2|auto].
    - inv1 H. destruct p as [[r2 x2] w2]. inv H. eapply send_window_ext; exact E. }
  pose proof (sane_ext _ _ EXT HS) as HS1. rewrite E1 in HS1. destruct (HS1 [] _ _ _ _ _ _ _ eq_refl) as (HN0 & HLV).
  destruct (Z.eqb_spec (q_opts q) 0) as [Eo|Eo]; cbn [negb] in H.
  - destruct wr eqn:WR.
    + match type of H with (let '(_, _) := ?e in _) = _ => destruct e as [rs w2] eqn:E2 end. inv H. split; [eapply only_trans; [exact X1|eapply send_only; exact E2]|apply OTH].
    + inv1 H. destruct p as [[r2 x2] w2]. inv H. set (x := mkS _ _ _ _ _ _ _ _ _ _ _ _ _ _ _ _ _ _ _ _ _ _) in E. split; [|apply OTH]. eapply only_trans; [exact X1|].
      assert (OUT : outcome file (q_name q) v x w1 x2 w' (rinv (file (q_name q)))).
      { eapply send_window_inv; [exact E| | | |exact GR|exact HR|exact LV| |].
        - destruct (has_read (v_ops v)) eqn:HRd; [reflexivity|]. cbn in IO. rewrite orb_true_r in IO. discriminate.
        - reflexivity.
        - reflexivity.
        - cbn. lia.
        - pose proof (zlen_nonneg (file (q_name q))). unfold pos. cbn. split; [lia|]. split; [reflexivity|]. split; [lia|reflexivity]. }
      eapply (only_outcome _ _ _ x); [exact OUT|exact HN0|exact LV].
  - inv1 H. destruct s as [pkt|e].
    + match type of H with (let '(_, _) := ?e in _) = _ => destruct e as [rs w2] eqn:E2 end. inv H. split; [eapply only_trans; [exact X1|eapply send_only; exact E2]|apply OTH].
    + inv H. split; [|apply OTH]. eapply only_trans; [exact X1|]. rewrite sfinish_log by exact HN0. destruct (has_close (v_ops v)); [|apply only_refl]. apply only_one. cbn [concerns x_handle]. eauto.
Qed.

(** C60: at most four sessions, with different peers, ports and files; a packet from one
    peer only makes the server send to that peer and use that peer's files, and leaves
    the sessions of all other peers exactly as they were. *)
Theorem tftp_sessions_isolated : forall file o c l hist v w local remote buf r v' w',
  cfg_typed c -> reach o c l hist v w -> Forall byte buf -> zlen buf <= 65535 ->
  server_receive v w local remote buf = Some (r, v', w') -> sane (snd w') -> reads_from file (snd w') ->
  length (v_sess v') = 4%nat /\
  (forall i j x y, nth_error (v_sess v') i = Some x -> nth_error (v_sess v') j = Some y -> is_free x = false -> is_free y = false -> i <> j ->
     x_remote x <> x_remote y /\ x_local x <> x_local y /\ x_handle x <> x_handle y) /\
  only_for remote (snd w) (snd w') /\
  (forall j y, nth_error (v_sess v) j = Some y -> is_free y = false -> x_remote y <> remote -> nth_error (v_sess v') j = Some y).
Proof.
  intros file o c l hist v w local remote buf r v' w' HC R HB HL H HS HR. pose proof (typed_ok c HC) as HO. pose proof (server_receive_ext _ _ _ _ _ _ _ _ H) as X.
  destruct (reach_inv file o c l hist v w HO R (sane_ext _ _ X HS) (reads_ext _ _ _ X HR)) as (HD & I).
  destruct (reach_inv file o c l _ v' w' HO (r_recv _ _ _ _ _ _ _ _ _ _ _ _ R HB HL H) HS HR) as ((_ & _ & _ & _ & L4) & J1 & J2 & _).
  split; [exact L4|]. split.
  { intros i j x y N1 N2 F1 F2 D. destruct (J2 i j x y N1 N2 F1 F2 D) as (A & B). split; [exact A|]. split; [|exact B]. destruct (J1 i x N1 F1) as (q1 & _ & _ & P1 & _). destruct (J1 j y N2 F2) as (q2 & _ & _ & P2 & _). rewrite P1, P2. unfold u16.
    assert (i < 4)%nat by (rewrite <- L4; apply nth_error_Some; congruence). assert (j < 4)%nat by (rewrite <- L4; apply nth_error_Some; congruence). lia. }
  clear J1 J2 L4. pose proof HD as (O1 & O2 & O3 & O4 & O5). unfold server_receive in H. cbv beta zeta in H. inv1 H. rename z into opcode.
  destruct (Z.eqb_spec local (v_listen v)) as [EL|EL].
  { inv1 H. destruct s as [q|e].
    - destruct (find_by_remote v remote) eqn:FR; [inv H; split; [apply only_refl|auto]|]. destruct (start_request_only file o c hist v w remote buf q r v' w') as (A & B); try assumption. split; [exact A|]. intros j y Ny Fy _. apply B; assumption.
    - match type of H with (let '(_, _) := ?e in _) = _ => destruct e as [rs w1] eqn:E1 end. inv H. split; [|auto]. destruct (e =? ERR_UNSUPPORTED); eapply error_only; exact E1. }
  destruct (find_session v local remote) as [i|] eqn:FS.
  2:{ match type of H with (let '(_, _) := ?e in _) = _ => destruct e as [rs w1] eqn:E1 end. inv H. split; [eapply error_only; exact E1|auto]. }
  apply find_idx_some in FS. destruct FS as (x & _ & NX & PX). rewrite Nat.sub_0_r in NX. apply andb_true_iff in PX. destruct PX as (PX & PR). apply andb_true_iff in PX. destruct PX as (PX & _). apply negb_true_iff in PX. apply ep_eqb_eq in PR.
  rewrite (nth_error_nth _ _ sess0 NX) in H.
  pose proof I as (IA & _). destruct (IA i x NX PX) as (q & SV). pose proof SV as (V1 & V2 & V3 & V4 & V5 & V6 & V7 & V8 & V9 & V10).
  assert (FINAL : forall (x' : sess) (w2 : world) P, outcome file (q_name q) v x w x' w2 P -> only_for remote (snd w) (snd w2) /\ (forall j y, nth_error (v_sess v) j = Some y -> is_free y = false -> x_remote y <> remote -> nth_error (v_sess (put v i x')) j = Some y)).
  { intros x' w2 P OUT. split; [rewrite <- PR; eapply only_outcome; [exact OUT|exact V5|exact V6]|]. intros j y Ny Fy D. rewrite put_sess, set_nth_other; [exact Ny|]. intros <-. congruence. }
  assert (FIN0 : forall st, only_for remote (snd w) (snd (server_finish v x w st)) /\ (forall j y, nth_error (v_sess v) j = Some y -> is_free y = false -> x_remote y <> remote -> nth_error (v_sess (put v i sess0)) j = Some y)).
  { intros st. apply (FINAL sess0 _ (fun _ => True)). apply finish_out. apply adds_refl. }
  assert (SAME : only_for remote (snd w) (snd w) /\ (forall j y, nth_error (v_sess v) j = Some y -> is_free y = false -> x_remote y <> remote -> nth_error (v_sess v) j = Some y)) by (split; [apply only_refl|auto]).
  clear PR. destruct (x_write x) eqn:WR.
  - destruct (opcode =? OP_ERROR); [inv H; apply FIN0|]. inv1 H. destruct o0 as [[block data]|]; [|inv H; exact SAME].
    destruct (accept_wrq v x w block data) as [[rs x1] w1] eqn:E1. inv H. eapply FINAL. eapply accept_wrq_out; [exact E1|exact PX|exact WR].
  - destruct (opcode =? OP_ERROR); [inv H; apply FIN0|]. match type of H with (if ?e then _ else _) = _ => destruct e end; [inv H; exact SAME|]. inv1 H. rename z into b.
    match type of H with (if ?e then _ else _) = _ => destruct e end; [inv H; exact SAME|].
    set (x1 := mkS _ _ _ _ _ _ _ _ _ _ _ _ _ _ _ _ _ _ _ _ _ _) in H.
    assert (S1 : same x x1) by (unfold same, x1; cbn; rewrite ?WR; intuition discriminate).
    match type of H with (if ?e then _ else _) = _ => destruct e end; [inv H; change (server_finish v x1 w 0) with (server_finish v x w 0); apply FIN0|].
    inv1 H. destruct p as [[r2 x2] w2]. inv H. destruct (V10 eq_refl) as (V11 & V12 & V13 & _). eapply FINAL.
    eapply outcome_from; [exact S1| |intros z Z1; exact Logic.I]. apply outcome_arm0. eapply send_window_inv; [eassumption|exact V11|exact (proj2 (proj2 (proj2 (proj2 (proj2 (proj2 (proj2 (proj2 S1))))))))|reflexivity|exact V8|exact HR|exact V6|exact V12|exact V13].
Qed.
Print Assumptions tftp_sessions_isolated.

(** ** C61: silent peers *)
Lemma window_loop_keeps : forall n v x w r x' w', window_loop n v x w = Some (r, x', w') -> x' = sess0 \/ (x_retries x' = x_retries x /\ x_neg x' = x_neg x).
Proof.
  induction n as [|n IH]; intros v x w r x' w' H; cbn [window_loop] in H; [inv H; right; auto|]. cbv zeta in H. destruct (call w _) as [a w1] eqn:EC.
  destruct (negb (a_rc a =? 0)); [inv H; auto|]. inv1 H; [discriminate|]. inv1 H.
  - match type of H with context [send_error ?a ?b ?c ?d ?e ?f] => destruct (send_error a b c d e f) as [? w2] eqn:E2 end. inv H. left. reflexivity.
  - inv1 H; [|inv H; auto]. match type of H with context [tftp_send ?a ?b ?c ?d ?e ?f] => destruct (tftp_send a b c d e f) as [rs w2] eqn:E2 end.
    destruct (negb (rs =? 0)); [inv H; auto|]. match type of H with (if ?g then _ else _) = _ => destruct g end; [inv H; auto|]. apply IH in H. exact H.
Qed.
(** The session will have had [k] retries at least, its timer was set at time [t'] or before. *)
Definition waiting (Tm : Z) (k t : Z) (x : sess) : Prop :=
  is_free x = true \/ (0 <= n_timeout (x_neg x) <= Tm /\ k <= x_retries x /\ exists t', t' <= t < t' + 1073741824 /\ x_deadline x = tftp_deadline (x_neg x) t').
Lemma deadline_past Tm g t t1 : 0 <= n_timeout g <= Tm -> Tm * 1000 < 1000000000 -> t + Tm * 1000 < t1 < t + 2147483648 -> tftp_deadline g t <> 0 /\ (s32 (u32 (t1 - tftp_deadline g t)) <? 0) = false.
Proof. intros A B C. unfold tftp_deadline, u32, s32. match goal with |- context [if ?e then 1 else ?d] => destruct (Z.eqb_spec d 0) end; (split; [lia|]); apply Z.ltb_ge; match goal with |- context [if ?e then _ else _] => destruct e eqn:? end; lia. Qed.
Lemma poll_slot_waiting Tm v x w k t t1 x' w' : waiting Tm k t x -> 0 <= c_retries (v_cfg v) <= 65535 -> 0 <= k -> Tm * 1000 < 1000000000 -> t + Tm * 1000 < t1 < t + 1073741824 -> poll_slot v x w t1 = Some (x', w') ->
  waiting Tm (k + 1) t1 x' /\ (c_retries (v_cfg v) <= k -> is_free x' = true).
Proof.
  intros W HR Hk HT Ht H. unfold poll_slot in H. cbv zeta in H. destruct (is_free x) eqn:FX; [inv H; split; [left|]; auto|]. destruct W as [W|(W1 & W2 & t' & W3 & W4)]; [congruence|].
  destruct (deadline_past Tm (x_neg x) t' t1 W1 HT ltac:(lia)) as (D1 & D2). rewrite <- W4 in D1, D2. destruct (Z.eqb_spec (x_deadline x) 0); [contradiction|]. rewrite D2 in H.
  destruct (Z.leb_spec (c_retries (v_cfg v)) (x_retries x)) as [C|C]; [inv H; split; [left|]; auto|]. split; [|lia]. inv1 H. destruct p as [x1 w1]. inv H.
  assert (K : x1 = sess0 \/ (x_retries x1 = x_retries x /\ x_neg x1 = x_neg x)).
  { destruct (x_optsent x); [|destruct (x_write x)].
    - inv1 E. destruct s as [pkt|]; inv E; auto.
    - inv E. auto.
    - inv1 E. destruct p as [[r2 x2] w2]. inv E. unfold send_window in E0. destruct (negb (has_read (v_ops v))); [inv E0; right; auto|]. apply window_loop_keeps in E0. exact E0. }
  destruct K as [->|(K1 & K2)]; [left; reflexivity|right]. cbn [x_neg x_retries x_deadline]. rewrite K1, K2. split; [exact W1|]. split; [unfold u16; lia|]. exists t1. split; [lia|reflexivity].
Qed.
Fixpoint polls (v : server) (w : world) (ts : list Z) : option (server * world) :=
  match ts with [] => Some (v, w) | t :: r => do (v, w) <- server_poll v w t; polls v w r end.
(** The clock readings in [ts], the first after [t], are more than [Tm] seconds apart. *)
Fixpoint spaced (Tm t : Z) (ts : list Z) : Prop := match ts with [] => True | t1 :: r => t + Tm * 1000 < t1 < t + 1073741824 /\ spaced Tm t1 r end.
Lemma poll_slots_waiting Tm v k t t1 : 0 <= c_retries (v_cfg v) <= 65535 -> 0 <= k -> Tm * 1000 < 1000000000 -> t + Tm * 1000 < t1 < t + 1073741824 -> forall l w l' w', Forall (waiting Tm k t) l -> poll_slots v l w t1 = Some (l', w') ->
  Forall (waiting Tm (k + 1) t1) l' /\ (c_retries (v_cfg v) <= k -> Forall (fun x => is_free x = true) l').
Proof.
  intros HR Hk HT Ht. induction l as [|x l IH]; intros w l' w' F H; cbn [poll_slots] in H; [inv H; auto|]. inv1 H. destruct p as [x1 w1]. inv1 H. destruct p as [l1 w2]. inv H.
  destruct (poll_slot_waiting Tm v x w k t t1 x1 w1 (Forall_inv F) HR Hk HT Ht E) as (A & B). destruct (IH _ _ _ (Forall_inv_tail F) E0) as (C & D). split; [constructor; assumption|]. intros Q. constructor; auto.
Qed.
Lemma polls_waiting Tm : Tm * 1000 < 1000000000 -> forall ts v w k t v' w', 0 <= c_retries (v_cfg v) <= 65535 -> 0 <= k -> Forall (waiting Tm k t) (v_sess v) -> spaced Tm t ts -> c_retries (v_cfg v) + 1 <= k + zlen ts -> ts <> [] ->
  polls v w ts = Some (v', w') -> Forall (fun x => is_free x = true) (v_sess v').
Proof.
  intros HT. induction ts as [|t1 ts IH]; intros v w k t v' w' HR Hk F S L NE H; [contradiction|]. cbn [polls spaced] in *. destruct S as (S1 & S2). inv1 H. destruct p as [v1 w1].
  unfold server_poll in E. inv1 E. destruct p as [l1 w2]. inv E. destruct (poll_slots_waiting Tm v k t t1 HR Hk HT S1 _ _ _ _ F E0) as (A & B). rewrite zlen_cons in L. destruct ts as [|t2 ts].
  - cbn in H. inv H. cbn [v_sess]. apply B. change (zlen []) with 0 in L. lia.
  - eapply (IH _ _ (k + 1) t1); [..|exact H]; try assumption; try discriminate; cbn [v_cfg v_sess]; try lia; assumption.
Qed.
(** C61: if no packets arrive, all sessions end (with their files closed, by
    [tftp_server_files]) at the latest at the max_retries+2nd poll, for polls further
    apart than the timeouts; [t] is a time before the first of them, and the deadlines
    running at [t] were set in the last 12 days. *)
Theorem tftp_server_reclaims : forall Tm v w t ts v' w',
  0 <= c_retries (v_cfg v) <= 65535 -> 1 <= Tm <= 65535 ->
  (forall x, In x (v_sess v) -> is_free x = false -> 0 <= n_timeout (x_neg x) <= Tm /\ 0 <= x_retries x /\
     (x_deadline x = 0 \/ exists t', t' <= t < t' + 1073741824 /\ x_deadline x = tftp_deadline (x_neg x) t')) ->
  spaced Tm t ts -> c_retries (v_cfg v) + 2 <= zlen ts -> polls v w ts = Some (v', w') -> Forall (fun x => is_free x = true) (v_sess v').
Proof.
  intros Tm v w t ts v' w' HR HT HX S L H. destruct ts as [|t1 ts]; [change (zlen []) with 0 in L; lia|]. rewrite zlen_cons in L. cbn [polls spaced] in *. destruct S as (S1 & S2). inv1 H. destruct p as [v1 w1]. unfold server_poll in E. inv1 E. destruct p as [l1 w2]. inv E.
  assert (F : Forall (waiting Tm 0 t1) l1).
  { revert HX E0. generalize (v_sess v) w l1. clear H. induction l as [|x l IH]; intros w0 l2 HX E0; cbn [poll_slots] in E0; [inv E0; constructor|]. inv1 E0. destruct p as [x1 w2]. inv1 E0. destruct p as [l3 w3]. inv E0.
    constructor; [|eapply IH; [|eassumption]; intros; apply HX; [right; assumption|assumption]].
    destruct (is_free x) eqn:FX. { unfold poll_slot in E. cbv zeta in E. rewrite FX in E. inv E. left. exact FX. }
    destruct (HX x (or_introl eq_refl) FX) as (W1 & W2 & W3). destruct (Z.eqb_spec (x_deadline x) 0) as [D|D].
    - unfold poll_slot in E. cbv zeta in E. rewrite FX, D in E. cbn [Z.eqb] in E. inv E. right. unfold set_xdeadline. cbn [x_neg x_retries x_deadline]. split; [exact W1|]. split; [exact W2|]. exists t1. split; [lia|reflexivity].
    - destruct W3 as [W3|(t' & W3 & W4)]; [contradiction|]. assert (W : waiting Tm 0 t x) by (right; split; [exact W1|split; [exact W2|exists t'; auto]]).
      destruct (poll_slot_waiting Tm v x w0 0 t t1 x1 w2 W HR ltac:(lia) ltac:(lia) S1 E) as (A & _). destruct A as [A|(A1 & A2 & A3)]; [left; exact A|right]. split; [exact A1|]. split; [lia|exact A3]. }
  eapply (polls_waiting Tm ltac:(lia) ts _ _ 0 t1); [..|exact H]; cbn [v_cfg v_sess]; try assumption; try lia. intros ->. change (zlen []) with 0 in L. lia.
Qed.
Print Assumptions tftp_server_reclaims.
