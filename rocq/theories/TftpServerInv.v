(** The invariant of the server: every operation keeps it. *)
From Verif Require Import Base ListUtil HttpUrl TftpCodec TftpCodecSpec TftpCodecProofs TftpCodecProps Tftp TftpSpec TftpClient TftpServerSpec TftpServer.

(** ** Requests *)
Lemma given_range k os v : given k os v -> opt_range k v.
Proof. induction 1 as [os kv v (_ & _ & R)|os kv v G IH N]; assumption. Qed.
Lemma parse_range buf q : Forall byte buf -> zlen buf <= 65535 -> parse_request buf = Some (inl q) ->
  0 <= q_opts q < 16 /\ (q_op q = 1 \/ q_op q = 2) /\ (Z.testbit (q_opts q) 0 = true -> 8 <= q_blksize q <= 1428) /\ (Z.testbit (q_opts q) 1 = true -> 1 <= q_timeout q <= 255) /\
  (Z.testbit (q_opts q) 3 = true -> 1 <= q_window q <= 8) /\ 0 <= q_tsize q <= 4294967295.
Proof.
  intros Hb Hl E. destruct (proj1 (proj2 (tftp_request_parse_exact buf Hb Hl) q) E) as (os & (mode & Op & _) & (O & H)).
  assert (R : forall k, Z.testbit (q_opts q) (bit_of k) = true -> opt_range k (val q k)).
  { intros k T. destruct (H k) as (H1 & _ & H3). destruct (proj1 H3 T) as (v & G). rewrite (H1 v G). eapply given_range; exact G. }
  split; [exact O|]. split; [exact Op|]. split; [exact (R KBlk)|]. split; [exact (R KTmo)|]. split; [exact (R KWin)|].
  destruct (Z.testbit (q_opts q) 2) eqn:T; [exact (R KTsz T)|]. destruct (H KTsz) as (_ & H2 & H3). assert (M : ~ mentioned KTsz os) by (intros M; apply H3 in M; change (bit_of KTsz) with 2 in M; congruence). specialize (H2 M). change (q_tsize q = 0) in H2. lia.
Qed.
Lemma land_bit0 q : negb (Z.land (q_opts q) OPT_BLKSIZE =? 0) = Z.testbit (q_opts q) 0.
Proof. exact (land_bit (q_opts q) 0 ltac:(lia)). Qed.

(** ** The log *)
Definition use_ok (e : event) (pre : list event) : Prop :=
  match e with
  | ERead h _ _ _ _ _ => exists n p, live h pre = Some (n, false, p)
  | EWrite h _ _ _ | EHash h _ _ | EVerify h _ _ => exists n p, live h pre = Some (n, true, p)
  | EClose h _ => live h pre <> None
  | _ => True
  end.
Fixpoint io_ok (log : list event) : Prop := match log with [] => True | e :: r => use_ok e r /\ io_ok r end.
Definition sent_ok (file : list Z -> list Z) (c : cfg) (hist : list sop) (e : event) : Prop :=
  match e with
  | ESend _ r p _ t =>
      (t = 0 -> (exists bl, p = build_ack bl) \/ (exists code msg, build_error 64 code msg = Some p) \/
        (exists g q, asked_by hist r q /\ n_blksize g = blk_of c q /\ build_oack (repeat 0 1432) PKT_MAX g (q_opts q) = Some (inl p))) /\
      (t <> 0 -> exists q, asked_by hist r q /\ q_op q = OP_RRQ /\ honest_data (file (q_name q)) (blk_of c q) t p)
  | _ => True
  end.

(** A session that serves the request [q]. *)
Definition serves (file : list Z -> list Z) (o : ops) (c : cfg) (hist : list sop) (log : list event) (i : nat) (x : sess) (q : preq) : Prop :=
  asked_by hist (x_remote x) q /\ (q_op q = 1 \/ q_op q = 2) /\ x_local x = u16 (20000 + Z.of_nat i) /\ x_write x = (q_op q =? OP_WRQ) /\ x_handle x <> 0 /\
  live (x_handle x) log = Some (q_name q, x_write x, x_remote x) /\ n_blksize (x_neg x) = blk_of c q /\ 0 < n_blksize (x_neg x) <= 1428 /\ (x_optsent x = true -> x_oack x = q_opts q) /\
  (x_write x = false -> has_read o = true /\ rinv (file (q_name q)) x).
Definition sinv (file : list Z -> list Z) (o : ops) (c : cfg) (hist : list sop) (l : list sess) (log : list event) : Prop :=
  (forall i x, nth_error l i = Some x -> is_free x = false -> exists q, serves file o c hist log i x q) /\
  (forall i j x y, nth_error l i = Some x -> nth_error l j = Some y -> is_free x = false -> is_free y = false -> i <> j -> x_remote x <> x_remote y /\ x_handle x <> x_handle y) /\
  Forall (sent_ok file c hist) log /\ io_ok log /\
  (has_close o = true -> forall h, live h log <> None -> exists i x, nth_error l i = Some x /\ is_free x = false /\ x_handle x = h).

Lemma asked_mono hist hist' r q : (forall op, In op hist -> In op hist') -> asked_by hist r q -> asked_by hist' r q.
Proof. intros H (buf & I & E). exists buf. auto. Qed.
Lemma sent_mono file c hist hist' e : (forall op, In op hist -> In op hist') -> sent_ok file c hist e -> sent_ok file c hist' e.
Proof.
  intros H. destruct e; cbn; auto. intros (A & B). split.
  - intros T. destruct (A T) as [X|[X|(g & q & X & Y)]]; auto. right; right. exists g, q. split; [eapply asked_mono; eassumption|exact Y].
  - intros T. destruct (B T) as (q & X & Y). exists q. split; [eapply asked_mono; eassumption|exact Y].
Qed.
Lemma sinv_hist file o c hist hist' l log : (forall op, In op hist -> In op hist') -> sinv file o c hist l log -> sinv file o c hist' l log.
Proof.
  intros H (A & B & C & D). split; [|split; [exact B|split; [|exact D]]].
  - intros i x N F. destruct (A i x N F) as (q & S1 & S2). exists q. split; [eapply asked_mono; eassumption|exact S2].
  - eapply Forall_impl; [|exact C]. intros e. apply sent_mono. exact H.
Qed.
Lemma live_onio file name x h l log : Forall (onio file name x) l -> live h (l ++ log) = live h log.
Proof. induction 1 as [|e l (Q1 & Q2) _ IH]; [reflexivity|]. cbn [app]. destruct e; cbn in *; try contradiction; exact IH. Qed.
Lemma io_adds file name x w w' peer : adds (onio file name x) w w' -> live (x_handle x) (snd w) = Some (name, x_write x, peer) -> io_ok (snd w) -> io_ok (snd w').
Proof.
  intros (l & E & F) HL HI. rewrite E. clear E. induction F as [|e l Q F IH]; [exact HI|]. cbn [app io_ok]. split; [|exact IH].
  destruct Q as (Q1 & Q2). destruct e; cbn in *; try contradiction; try exact Logic.I; destruct Q1 as (-> & W); rewrite (live_onio _ _ _ _ _ _ F), HL, W; eauto.
Qed.
Lemma sent_adds file o c hist w w' x i q : adds (onio file (q_name q) x) w w' -> serves file o c hist (snd w) i x q -> Forall (sent_ok file c hist) (snd w) -> Forall (sent_ok file c hist) (snd w').
Proof.
  intros (l & E & F) (S1 & S2 & S3 & S4 & S5 & S6 & S7 & S8 & S9 & S10) H. rewrite E. apply Forall_app. split; [|exact H]. eapply Forall_impl; [|exact F]. intros e (O & _). destruct e; cbn in *; auto.
  destruct O as (-> & -> & O1 & O2). split.
  - intros T. destruct (O1 T) as [X|[X|(X & Y)]]; auto. right; right. exists (x_neg x), q. rewrite <- (S9 X). auto.
  - intros T. destruct (O2 T) as (W & Y). exists q. split; [exact S1|]. rewrite S4 in W. apply Z.eqb_neq in W. unfold OP_WRQ, OP_RRQ in *. split; [destruct S2; congruence|]. rewrite <- S7. exact Y.
Qed.
Lemma sfinish_log v x w st : x_handle x <> 0 -> snd (server_finish v x w st) = if has_close (v_ops v) then EClose (x_handle x) st :: snd w else snd w.
Proof.
  intros H. unfold server_finish. destruct (Z.eqb_spec (x_handle x) 0); [contradiction|]. destruct (has_close (v_ops v)); cbn [andb negb]; [|reflexivity]. destruct (call w (fun _ => EClose (x_handle x) st)) as [a w'] eqn:E. apply call_inv in E. exact E.
Qed.

(** A call on one session keeps the invariant. *)
Lemma step_slot file o c hist l v w i x q x' w' : sinv file o c hist l (snd w) -> v_ops v = o -> nth_error l i = Some x -> is_free x = false -> serves file o c hist (snd w) i x q ->
  outcome file (q_name q) v x w x' w' (fun x' => x_write x = false -> rinv (file (q_name q)) x') -> sinv file o c hist (set_nth i x' l) (snd w').
Proof.
  intros (A & B & C & D & G) HO HN HF SV OUT. pose proof SV as (S1 & S2 & S3 & S4 & S5 & S6 & S7 & S8 & S9 & S10).
  assert (Li : (i < length l)%nat) by (apply nth_error_Some; congruence).
  assert (OTH : forall j y, nth_error (set_nth i x' l) j = Some y -> (j = i /\ y = x') \/ (j <> i /\ nth_error l j = Some y)).
  { intros j y N. destruct (Nat.eq_dec j i) as [->|]; [left|right; split; [assumption|]]; [rewrite set_nth_same in N by assumption; split; congruence|rewrite set_nth_other in N by congruence; exact N]. }
  destruct OUT as [(K1 & w1 & st & K2 & K3)|(K1 & K2 & K3)].
  - assert (L1 : forall h, live h (snd w1) = live h (snd w)) by (intros h; destruct K2 as (l2 & E & F); rewrite E; eapply live_onio; exact F).
    assert (L2 : forall h, h <> x_handle x -> live h (snd w') = live h (snd w)).
    { intros h N. rewrite K3, (sfinish_log v x w1 st S5), HO, <- L1. destruct (has_close o); [|reflexivity]. cbn. destruct (Z.eqb_spec (x_handle x) h); [congruence|reflexivity]. }
    split; [|split; [|split; [|split]]].
    + intros j y N F. apply OTH in N. destruct N as [(-> & ->)|(NJ & N)]; [congruence|]. destruct (A j y N F) as (q' & T1 & T2 & T3 & T4 & T5 & T6 & T7). exists q'. repeat (split; [assumption|]). split; [|exact T7].
      rewrite L2; [exact T6|]. apply not_eq_sym. exact (proj2 (B i j x y HN N HF F ltac:(congruence))).
    + intros j k y z Nj Nk Fy Fz Hjk. apply OTH in Nj. apply OTH in Nk. destruct Nj as [(-> & ->)|(_ & Nj)]; [congruence|]. destruct Nk as [(-> & ->)|(_ & Nk)]; [congruence|]. eapply B; eassumption.
    + rewrite K3, (sfinish_log v x w1 st S5). pose proof (sent_adds _ _ _ _ _ _ _ _ _ K2 SV C) as X. destruct (has_close (v_ops v)); [constructor; [exact I|exact X]|exact X].
    + rewrite K3, (sfinish_log v x w1 st S5). pose proof (io_adds _ _ _ _ _ _ K2 S6 D) as X. destruct (has_close (v_ops v)); [|exact X]. split; [|exact X]. cbn. rewrite L1, S6. discriminate.
    + intros HC h Hh. destruct (Z.eq_dec h (x_handle x)) as [->|N].
      * exfalso. apply Hh. rewrite K3, (sfinish_log v x w1 st S5), HO, HC. cbn. rewrite Z.eqb_refl. reflexivity.
      * rewrite L2 in Hh by exact N. destruct (G HC h Hh) as (j & y & Nj & Fy & Ey). exists j, y. split; [|auto]. rewrite set_nth_other; [exact Nj|]. intros <-. congruence.
  - assert (L1 : forall h, live h (snd w') = live h (snd w)) by (intros h; destruct K2 as (l2 & E & F); rewrite E; eapply live_onio; exact F).
    pose proof K1 as (E1 & E2 & E3 & E4 & E5 & E6 & E7 & E8 & E9).
    split; [|split; [|split; [|split]]].
    + intros j y N F. apply OTH in N. destruct N as [(-> & ->)|(NJ & N)].
      * exists q. unfold serves. rewrite E1, E2, E3, E4, E5, E6, L1. repeat (split; [assumption|]). split; [auto|]. intros W. split; [exact (proj1 (S10 W))|exact (K3 W)].
      * destruct (A j y N F) as (q' & T1 & T2 & T3 & T4 & T5 & T6 & T7). exists q'. repeat (split; [assumption|]). split; [rewrite L1; exact T6|exact T7].
    + intros j k y z Nj Nk Fy Fz Hjk. apply OTH in Nj. apply OTH in Nk. destruct Nj as [(-> & ->)|(Hj & Nj)], Nk as [(-> & ->)|(Hk & Nk)]; [congruence| | |eapply B; eassumption].
      * rewrite E1, E3. exact (B i k x z HN Nk HF Fz Hjk).
      * rewrite E1, E3. exact (B j i y x Nj HN Fy HF Hjk).
    + eapply sent_adds; eassumption.
    + eapply io_adds; eassumption.
    + intros HC h Hh. rewrite L1 in Hh. destruct (G HC h Hh) as (j & y & Nj & Fy & Ey). destruct (Nat.eq_dec j i) as [->|].
      * exists i, x'. rewrite set_nth_same by assumption. split; [reflexivity|]. split; [exact E9|]. congruence.
      * exists j, y. rewrite set_nth_other by congruence. auto.
Qed.

(** ** Searching *)
Lemma find_idx_some p l : forall k i, find_idx p l k = Some i -> exists x, (k <= i)%nat /\ nth_error l (i - k) = Some x /\ p x = true.
Proof.
  induction l as [|x l IH]; intros k i H; cbn [find_idx] in H; [discriminate|]. destruct (p x) eqn:E.
  - injection H as <-. exists x. split; [lia|]. rewrite Nat.sub_diag. auto.
  - apply IH in H. destruct H as (y & Lk & N & P). exists y. split; [lia|]. replace (i - k)%nat with (S (i - S k)) by lia. auto.
Qed.
Lemma find_idx_none p l : forall k, find_idx p l k = None -> forall i x, nth_error l i = Some x -> p x = false.
Proof.
  induction l as [|y l IH]; intros k H i x N; cbn [find_idx] in H; [destruct i; discriminate|]. destruct (p y) eqn:E; [discriminate|]. destruct i as [|i]; [cbn in N; congruence|]. eapply IH; eassumption.
Qed.
Lemma ep_eqb_eq a b : ep_eqb a b = true <-> a = b.
Proof. unfold ep_eqb. rewrite andb_true_iff, !Z.eqb_eq. destruct a, b; cbn. split; [intros (-> & ->); reflexivity|intros [= -> ->]; auto]. Qed.

(** ** Steps that do not concern a session *)
Lemma sinv_free file o c hist l log i x0 y : sinv file o c hist l log -> nth_error l i = Some x0 -> is_free x0 = true -> is_free y = true -> sinv file o c hist (set_nth i y l) log.
Proof.
  intros (A & B & C & D & G) N F0 Fy. assert (Li : (i < length l)%nat) by (apply nth_error_Some; congruence).
  assert (OTH : forall j z, nth_error (set_nth i y l) j = Some z -> is_free z = false -> nth_error l j = Some z).
  { intros j z Nz Fz. destruct (Nat.eq_dec j i) as [->|]; [rewrite set_nth_same in Nz by assumption; congruence|rewrite set_nth_other in Nz by congruence; exact Nz]. }
  split; [|split; [|split; [exact C|split; [exact D|]]]].
  - intros j z Nz Fz. apply A; auto.
  - intros j k z t Nj Nk Fz Ft Hjk. eapply B; eauto.
  - intros HC h Hh. destruct (G HC h Hh) as (j & z & Nj & Fz & E). exists j, z. split; [|auto]. rewrite set_nth_other; [exact Nj|]. intros <-. congruence.
Qed.
Definition plain (e : event) : Prop :=
  match e with
  | ESend _ _ p _ t => t = 0 /\ exists code msg, build_error 64 code msg = Some p
  | EOpen _ _ _ rc _ _ _ => rc <> 0
  | _ => False
  end.
Lemma sinv_plain file o c hist l w w' : adds plain w w' -> sinv file o c hist l (snd w) -> sinv file o c hist l (snd w').
Proof.
  intros (evs & E & F) S. rewrite E. clear E. induction F as [|e evs Q F IH]; [exact S|]. cbn [app]. destruct IH as (A & B & C & D & G).
  assert (LV : forall h, live h (e :: evs ++ snd w) = live h (evs ++ snd w)) by (intros h; destruct e; cbn in Q; try contradiction; cbn; [reflexivity|]; destruct (Z.eqb_spec rc 0); [contradiction|reflexivity]).
  split; [|split; [exact B|split; [|split]]].
  - intros i x N Fx. destruct (A i x N Fx) as (q & T1 & T2 & T3 & T4 & T5 & T6 & T7). exists q. repeat (split; [assumption|]). split; [rewrite LV; exact T6|exact T7].
  - constructor; [|exact C]. destruct e; cbn in Q; try contradiction; cbn; [|exact I]. destruct Q as (-> & Q). split; [intros _; right; left; exact Q|tauto].
  - split; [|exact D]. destruct e; cbn in Q; try contradiction; exact I.
  - intros HC h Hh. rewrite LV in Hh. exact (G HC h Hh).
Qed.
Lemma error_plain o w l r code msg rc w' : send_error o w l r code msg = (rc, w') -> adds plain w w'.
Proof. intros H. eapply error_adds; [exact H|]. intros rc' p E. split; [reflexivity|eauto]. Qed.

(** A new session. *)
Lemma sinv_open file o c hist l log i x0 x q hint size : sinv file o c hist l log -> nth_error l i = Some x0 -> is_free x0 = true -> is_free x = false ->
  (forall j y, nth_error l j = Some y -> is_free y = false -> x_remote y <> x_remote x) -> live (x_handle x) log = None ->
  serves file o c hist (EOpen (q_name q) (x_write x) hint 0 (x_handle x) size (x_remote x) :: log) i x q ->
  sinv file o c hist (set_nth i x l) (EOpen (q_name q) (x_write x) hint 0 (x_handle x) size (x_remote x) :: log).
Proof.
  intros (A & B & C & D & G) N F0 Fx HR HL SV. assert (Li : (i < length l)%nat) by (apply nth_error_Some; congruence).
  assert (OTH : forall j z, nth_error (set_nth i x l) j = Some z -> (j = i /\ z = x) \/ (j <> i /\ nth_error l j = Some z)).
  { intros j z Nz. destruct (Nat.eq_dec j i) as [->|]; [left; rewrite set_nth_same in Nz by assumption; split; congruence|right; split; [assumption|]; rewrite set_nth_other in Nz by congruence; exact Nz]. }
  assert (HH : forall j y, nth_error l j = Some y -> is_free y = false -> x_handle y <> x_handle x).
  { intros j y Ny Fy E. destruct (A j y Ny Fy) as (q' & _ & _ & _ & _ & _ & T6 & _). rewrite E, HL in T6. discriminate. }
  assert (LV : forall h, h <> x_handle x -> live h (EOpen (q_name q) (x_write x) hint 0 (x_handle x) size (x_remote x) :: log) = live h log) by (intros h Hn; cbn; destruct (Z.eqb_spec (x_handle x) h); [congruence|reflexivity]).
  split; [|split; [|split; [|split]]].
  - intros j z Nz Fz. apply OTH in Nz. destruct Nz as [(-> & ->)|(Hj & Nz)]; [exists q; exact SV|]. destruct (A j z Nz Fz) as (q' & T1 & T2 & T3 & T4 & T5 & T6 & T7). exists q'. repeat (split; [assumption|]). split; [rewrite LV by (eapply HH; eassumption); exact T6|exact T7].
  - intros j k z t Nj Nk Fz Ft Hjk. apply OTH in Nj. apply OTH in Nk. destruct Nj as [(-> & ->)|(Hj & Nj)], Nk as [(-> & ->)|(Hk & Nk)]; [congruence| | |eapply B; eassumption].
    + split; apply not_eq_sym; [eapply HR|eapply HH]; eassumption.
    + split; [eapply HR|eapply HH]; eassumption.
  - constructor; [exact Logic.I|exact C].
  - split; [exact Logic.I|exact D].
  - intros HC h Hh. destruct (Z.eq_dec h (x_handle x)) as [->|Hn].
    + exists i, x. rewrite set_nth_same by assumption. auto.
    + rewrite LV in Hh by assumption. destruct (G HC h Hh) as (j & z & Nj & Fz & E). exists j, z. split; [|auto]. rewrite set_nth_other; [exact Nj|]. intros <-. congruence.
Qed.

(** ** Outcomes of related sessions *)
Lemma outcome_from file name v x y w x' w' (P Q : sess -> Prop) : same x y -> outcome file name v y w x' w' P -> (forall z, P z -> Q z) -> outcome file name v x w x' w' Q.
Proof.
  intros S O HP. assert (AW : forall a b, adds (onio file name y) a b -> adds (onio file name x) a b) by (intros a b; apply adds_weak; intros e (X1 & X2); split; [eapply own_same; [exact S|exact X1]|exact X2]).
  destruct O as [(K1 & w1 & st & K2 & K3)|(K1 & K2 & K3)]; [left|right].
  - split; [exact K1|]. exists w1, st. split; [apply AW; exact K2|]. rewrite K3. unfold server_finish. destruct S as (_ & _ & E & _). rewrite E. reflexivity.
  - split; [exact (same_trans _ _ _ S K1)|]. split; [apply AW; exact K2|apply HP; exact K3].
Qed.
Lemma outcome_arm0 file name v x w x' w' r F : outcome file name v x w x' w' (rinv F) -> outcome file name v x w (arm0 r x') w' (rinv F).
Proof.
  intros O. unfold arm0. destruct (r =? 0); [|exact O]. destruct O as [(K1 & K2)|(K1 & K2 & K3)]; [left|right]; [split; [exact K1|exact K2]|]. split; [|split; [exact K2|exact K3]]. unfold same, set_xdeadline in *. cbn. exact K1.
Qed.

(** ** The operations *)
Definition head (o : ops) (c : cfg) (v : server) : Prop := v_ops v = o /\ v_cfg v = cfg_defaults c /\ v_listen v = 69 /\ v_base v = 20000 /\ length (v_sess v) = 4%nat.
Lemma head_put o c v i x : head o c v -> head o c (put v i x).
Proof. unfold head, put. cbn. rewrite set_nth_length. auto. Qed.
Lemma send_window_ext v x w r x' w' : send_window v x w = Some (r, x', w') -> ext w w'.
Proof. unfold send_window. intros H. destruct (negb (has_read (v_ops v))); [inv H; apply adds_refl|]. eapply window_loop_ext; exact H. Qed.

Lemma set_nth_twice {A} (i : nat) (x y : A) l : set_nth i x (set_nth i y l) = set_nth i x l.
Proof. revert i. induction l as [|z l IH]; intros [|i]; cbn; try reflexivity. f_equal. apply IH. Qed.

Lemma start_request_inv file o c hist v w remote buf q r v' w' : cfg_ok (cfg_defaults c) -> head o c v -> sinv file o c hist (v_sess v) (snd w) -> Forall byte buf -> zlen buf <= 65535 -> In (SRecv 69 remote buf) hist -> parse_request buf = Some (inl q) ->
  find_by_remote v remote = None -> start_request v w remote q = Some (r, v', w') -> sane (snd w') -> reads_from file (snd w') -> head o c v' /\ sinv file o c hist (v_sess v') (snd w').
Proof.
  intros HC HD I HB HL HIn HP HFR H HS HR. pose proof HD as (O1 & O2 & O3 & O4 & O5). unfold start_request in H. cbv beta zeta in H.
  destruct (parse_range buf q HB HL HP) as (R0 & R1 & R2 & R3 & R4 & R5).
  destruct (alloc_session v) as [i|] eqn:AL.
  2:{ destruct (send_error (v_ops v) w (v_listen v) remote 0 m_slots) as [rs w1] eqn:E1. inv H. split; [exact HD|]. eapply sinv_plain; [eapply error_plain; exact E1|exact I]. }
  apply find_idx_some in AL. destruct AL as (x0 & _ & N0 & F0). rewrite Nat.sub_0_r in N0.
  assert (FRE : forall (w2 : world), sinv file o c hist (v_sess v) (snd w2) -> head o c (put v i sess0) /\ sinv file o c hist (v_sess (put v i sess0)) (snd w2)).
  { intros w2 I2. split; [apply head_put; exact HD|]. cbn [put v_sess]. eapply sinv_free; [exact I2|exact N0|exact F0|reflexivity]. }
  match type of H with (if ?e then _ else _) = _ => destruct e end.
  { match type of H with (let '(_, _) := ?e in _) = _ => destruct e as [rs w1] eqn:E1 end. inv H. apply FRE. eapply sinv_plain; [eapply error_plain; exact E1|exact I]. }
  match type of H with (if ?e then _ else _) = _ => destruct e eqn:IO end.
  { match type of H with (let '(_, _) := ?e in _) = _ => destruct e as [rs w1] eqn:E1 end. inv H. apply FRE. eapply sinv_plain; [eapply error_plain; exact E1|exact I]. }
  match type of H with (let '(_, _) := call ?w ?e in _) = _ => destruct (call w e) as [a w1] eqn:E1 end.
  destruct (Z.eqb_spec (a_rc a) 0) as [Ra|Ra]; cbn [negb] in H.
  2:{ match type of H with (let '(_, _) := ?e in _) = _ => destruct e as [rs w2] eqn:E2 end. inv H. apply FRE. eapply sinv_plain; [eapply error_plain; exact E2|]. eapply sinv_plain; [eapply adds_call; [exact E1|exact Ra]|exact I]. }
  set (wr := q_op q =? OP_WRQ) in *.
  match type of H with context [mkS remote ?g _ _ _ _ _ _ _ _ _ _ _ _ _ _ _ _ _ _ _ _] => set (g1 := g) in * end.
  assert (GB : n_blksize g1 = blk_of c q) by (unfold g1, blk_of; rewrite land_bit0, O2; destruct (negb wr && negb (Z.land (q_opts q) OPT_TSIZE =? 0)); reflexivity).
  assert (GR : 0 < n_blksize g1 <= 1428) by (rewrite GB; unfold blk_of; destruct HC as (C1 & _); destruct (Z.testbit (q_opts q) 0); [specialize (R2 eq_refl); lia|lia]).
  apply call_inv in E1. rewrite Ra in E1.
  set (loc := u16 (v_base v + Z.of_nat i)) in *. assert (LOC : loc = u16 (20000 + Z.of_nat i)) by (unfold loc; rewrite O4; reflexivity).
  set (xt := mkS remote g1 (a_handle a) 0 0 0 0 0 0 false loc 1 0 0 0 wr true (q_opts q) false (if wr then SRecvData else SSendWaitAck) 1 0).
  assert (EXT : ext w1 w').
  { destruct (negb (q_opts q =? 0)); [|destruct wr].
    - inv1 H. destruct s as [pkt|e]; [|inv H; apply sfinish_adds; exact Logic.I]. match type of H with (let '(_, _) := ?e in _) = _ => destruct e as [rs w2] eqn:E2 end. inv H. eapply send_adds; [exact E2|auto].
    - match type of H with (let '(_, _) := ?e in _) = _ => destruct e as [rs w2] eqn:E2 end. inv H. eapply send_adds; [exact E2|auto].
    - inv1 H. destruct p as [[r2 x2] w2]. inv H. eapply send_window_ext; exact E. }
  pose proof (sane_ext _ _ EXT HS) as HS1. rewrite E1 in HS1. destruct (HS1 [] _ _ _ _ _ _ _ eq_refl) as (HN0 & HLV).
  assert (Fx : is_free xt = false) by (unfold is_free, xt; cbn; destruct wr; reflexivity).
  assert (SV : serves file o c hist (snd w1) i xt q).
  { unfold serves, xt. cbn [x_remote x_neg x_handle x_off x_total x_deadline x_wsoff x_wstotal x_wsblock x_wsfinal x_local x_next x_acked x_wcount x_retries x_write x_optsent x_oack x_final x_state x_idx x_wsidx].
    split; [exists buf; auto|]. split; [exact R1|]. split; [exact LOC|]. split; [reflexivity|]. split; [exact HN0|]. split; [rewrite E1; cbn; rewrite Z.eqb_refl; reflexivity|]. split; [exact GB|]. split; [exact GR|]. split; [reflexivity|].
    intros W. split.
    - rewrite W in IO. destruct (has_read (v_ops v)) eqn:HRd; [congruence|]. cbn in IO. rewrite orb_true_r in IO. discriminate.
    - unfold rinv, pos. cbn. pose proof (zlen_nonneg (file (q_name q))). split; [lia|]. split; [split; [lia|]; split; [reflexivity|]; split; [lia|reflexivity]|]. split; [auto|lia]. }
  assert (I1 : sinv file o c hist (set_nth i xt (v_sess v)) (snd w1)).
  { pose proof (sinv_open file o c hist (v_sess v) (snd w) i x0 xt q (if n_have (mkNeg (if negb (Z.land (q_opts q) OPT_BLKSIZE =? 0) then q_blksize q else c_blksize (v_cfg v)) (if negb (Z.land (q_opts q) OPT_TIMEOUT =? 0) then q_timeout q else c_timeout (v_cfg v))
                   (if negb (Z.land (q_opts q) OPT_WINDOWSIZE =? 0) then q_window q else c_window (v_cfg v)) (q_tsize q) (negb (Z.land (q_opts q) OPT_TSIZE =? 0))) then q_tsize q else 0) (a_size a) I N0 F0 Fx) as X.
    rewrite E1 in SV |- *. apply X; [|exact HLV|exact SV]. intros j y Ny Fy E. pose proof (find_idx_none _ _ _ HFR j y Ny) as Z0. cbv beta in Z0. rewrite Fy in Z0. cbn [negb andb] in Z0. apply (proj2 (ep_eqb_eq _ _)) in E. cbn [xt x_remote] in E. congruence. }
  assert (FINAL : forall (x' : sess) (w2 : world), outcome file (q_name q) v xt w1 x' w2 (fun x' => x_write xt = false -> rinv (file (q_name q)) x') -> head o c (put v i x') /\ sinv file o c hist (v_sess (put v i x')) (snd w2)).
  { intros x' w2 OUT. split; [apply head_put; exact HD|]. cbn [put v_sess]. assert (Li : (i < length (v_sess v))%nat) by (apply nth_error_Some; congruence).
    assert (N1 : nth_error (set_nth i xt (v_sess v)) i = Some xt) by (apply set_nth_same; exact Li).
    pose proof (step_slot file o c hist _ v w1 i xt q x' w2 I1 O1 N1 Fx SV OUT) as X. replace (set_nth i x' (set_nth i xt (v_sess v))) with (set_nth i x' (v_sess v)) in X; [exact X|].
    symmetry. apply set_nth_twice. }
  destruct (Z.eqb_spec (q_opts q) 0) as [Eo|Eo]; cbn [negb] in H.
  - (* no options *)
    set (x := mkS remote g1 (a_handle a) 0 0 0 0 0 0 false loc 1 0 0 0 wr false 0 false (if wr then SRecvData else SSendWaitAck) 1 0) in H.
    assert (SX : same xt x) by (unfold same, xt, x; cbn; rewrite Eo; destruct wr; auto 10).
    destruct wr eqn:WR.
    + match type of H with (let '(_, _) := ?e in _) = _ => destruct e as [rs w2] eqn:E2 end. inv H. apply FINAL. right. split; [exact SX|]. split; [|discriminate]. eapply send_adds; [exact E2|]. intros. apply own_ack; reflexivity.
    + inv1 H. destruct p as [[r2 x2] w2]. inv H. apply FINAL. destruct SV as (_ & _ & _ & _ & _ & V6 & _ & V8 & _ & V10). destruct (V10 eq_refl) as (V11 & V12 & V13 & _).
      eapply outcome_from; [exact SX| |intros z Z1 _; exact Z1]. apply outcome_arm0. eapply send_window_inv; [exact E|exact V11|reflexivity|reflexivity|exact V8|exact HR|exact V6|exact V12|exact V13].
  - inv1 H. destruct s as [pkt|e].
    + match type of H with (let '(_, _) := ?e in _) = _ => destruct e as [rs w2] eqn:E2 end. inv H. apply FINAL. right. change (mkS remote g1 (a_handle a) 0 0 0 0 0 0 false loc 1 0 0 0 wr true (q_opts q) false (if wr then SRecvData else SSendWaitAck) 1 0) with xt. split; [apply same_refl; exact Fx|].
      split; [|intros W; destruct SV as (_ & _ & _ & _ & _ & _ & _ & _ & _ & V10); exact (proj2 (V10 W))]. eapply send_adds; [exact E2|]. intros. split; [|exact Logic.I]. cbn. split; [reflexivity|]. split; [reflexivity|]. split; [auto|tauto].
    + inv H. apply FINAL. apply (finish_out file (q_name q) v xt w1 w1). apply adds_refl.
Qed.

Lemma put_sess v i x : v_sess (put v i x) = set_nth i x (v_sess v).
Proof. reflexivity. Qed.
Lemma server_receive_inv file o c hist v w local remote buf r v' w' : cfg_ok (cfg_defaults c) -> head o c v -> sinv file o c hist (v_sess v) (snd w) -> Forall byte buf -> zlen buf <= 65535 ->
  server_receive v w local remote buf = Some (r, v', w') -> sane (snd w') -> reads_from file (snd w') ->
  head o c v' /\ sinv file o c (SRecv local remote buf :: hist) (v_sess v') (snd w').
Proof.
  intros HC HD I0 HB HL H HS HR. set (hist' := SRecv local remote buf :: hist).
  assert (I : sinv file o c hist' (v_sess v) (snd w)) by (eapply sinv_hist; [|exact I0]; intros; right; assumption). clear I0.
  pose proof HD as (O1 & O2 & O3 & O4 & O5). unfold server_receive in H. cbv beta zeta in H. inv1 H. rename z into opcode.
  destruct (Z.eqb_spec local (v_listen v)) as [EL|EL].
  { inv1 H. destruct s as [q|e].
    - destruct (find_by_remote v remote) eqn:FR; [inv H; auto|]. eapply start_request_inv; try eassumption. unfold hist'. rewrite EL, O3. left. reflexivity.
    - match type of H with (let '(_, _) := ?e in _) = _ => destruct e as [rs w1] eqn:E1 end. inv H. split; [exact HD|]. eapply sinv_plain; [|exact I]. destruct (e =? ERR_UNSUPPORTED); eapply error_plain; exact E1. }
  destruct (find_session v local remote) as [i|] eqn:FS.
  2:{ match type of H with (let '(_, _) := ?e in _) = _ => destruct e as [rs w1] eqn:E1 end. inv H. split; [exact HD|]. eapply sinv_plain; [|exact I]. eapply error_plain; exact E1. }
  apply find_idx_some in FS. destruct FS as (x & _ & NX & PX). rewrite Nat.sub_0_r in NX. apply andb_true_iff in PX. destruct PX as (PX & _). apply andb_true_iff in PX. destruct PX as (PX & _). apply negb_true_iff in PX.
  rewrite (nth_error_nth _ _ sess0 NX) in H.
  pose proof I as (IA & _). destruct (IA i x NX PX) as (q & SV). pose proof SV as (V1 & V2 & V3 & V4 & V5 & V6 & V7 & V8 & V9 & V10).
  assert (FINAL : forall (x' : sess) (w2 : world), outcome file (q_name q) v x w x' w2 (fun x' => x_write x = false -> rinv (file (q_name q)) x') -> head o c (put v i x') /\ sinv file o c hist' (v_sess (put v i x')) (snd w2)).
  { intros x' w2 OUT. split; [apply head_put; exact HD|]. exact (step_slot file o c hist' _ v w i x q x' w2 I O1 NX PX SV OUT). }
  assert (FIN0 : forall st, head o c (put v i sess0) /\ sinv file o c hist' (v_sess (put v i sess0)) (snd (server_finish v x w st))).
  { intros st. apply FINAL. apply finish_out. apply adds_refl. }
  destruct (x_write x) eqn:WR.
  - destruct (opcode =? OP_ERROR); [inv H; apply FIN0|]. inv1 H. destruct o0 as [[block data]|]; [|inv H; auto].
    destruct (accept_wrq v x w block data) as [[rs x1] w1] eqn:E1. inv H. apply FINAL. eapply accept_wrq_out in E1; [|exact PX|exact WR].
    eapply outcome_from; [apply same_refl; exact PX|exact E1|discriminate].
  - destruct (opcode =? OP_ERROR); [inv H; apply FIN0|]. match type of H with (if ?e then _ else _) = _ => destruct e end; [inv H; auto|]. inv1 H. rename z into b.
    match type of H with (if ?e then _ else _) = _ => destruct e end; [inv H; auto|].
    set (x1 := mkS _ _ _ _ _ _ _ _ _ _ _ _ _ _ _ _ _ _ _ _ _ _) in H.
    assert (S1 : same x x1) by (unfold same, x1; cbn; rewrite ?WR; intuition discriminate).
    match type of H with (if ?e then _ else _) = _ => destruct e end; [inv H; change (server_finish v x1 w 0) with (server_finish v x w 0); apply FIN0|].
    inv1 H. destruct p as [[r2 x2] w2]. inv H. apply FINAL. destruct (V10 eq_refl) as (V11 & V12 & V13 & _).
    eapply outcome_from; [exact S1| |intros z Z1 _; exact Z1]. apply outcome_arm0. eapply send_window_inv; [eassumption|exact V11|exact (proj2 (proj2 (proj2 (proj2 (proj2 (proj2 (proj2 (proj2 S1))))))))|reflexivity|exact V8|exact HR|exact V6|exact V12|exact V13].
Qed.

Lemma poll_slot_ext v x w now x' w' : poll_slot v x w now = Some (x', w') -> ext w w'.
Proof.
  intros H. unfold poll_slot in H. cbv zeta in H. destruct (is_free x); [inv H; apply adds_refl|]. destruct (x_deadline x =? 0); [inv H; apply adds_refl|]. destruct (s32 (u32 (now - x_deadline x)) <? 0); [inv H; apply adds_refl|].
  destruct (c_retries (v_cfg v) <=? x_retries x); [inv H; apply sfinish_adds; exact Logic.I|]. inv1 H. destruct p as [x1 w1]. inv H. destruct (x_optsent x).
  - inv1 E. destruct s as [pkt|]; inv E; [|apply adds_refl]. match goal with |- ext _ (snd ?e) => destruct e as [rs w1] eqn:E1 end. eapply send_adds; [exact E1|intros; exact Logic.I].
  - destruct (x_write x).
    + inv E. match goal with |- ext _ (snd ?e) => destruct e as [rs w1] eqn:E1 end. eapply send_adds; [exact E1|intros; exact Logic.I].
    + inv1 E. destruct p as [[r2 x2] w2]. inv E. eapply send_window_ext; eassumption.
Qed.
Lemma poll_slots_ext v now : forall l w l' w', poll_slots v l w now = Some (l', w') -> ext w w'.
Proof.
  induction l as [|x l IH]; intros w l' w' H; cbn [poll_slots] in H; [inv H; apply adds_refl|]. inv1 H. destruct p as [x1 w1]. inv1 H. destruct p as [l1 w2]. inv H. eapply adds_trans; [eapply poll_slot_ext; eassumption|eapply IH; eassumption].
Qed.
Lemma poll_slots_inv file o c hist v now : v_ops v = o -> forall l done w l' w', poll_slots v l w now = Some (l', w') -> sinv file o c hist (done ++ l) (snd w) -> reads_from file (snd w') ->
  length l' = length l /\ sinv file o c hist (done ++ l') (snd w').
Proof.
  intros O1. induction l as [|x l IH]; intros done w l' w' H I HR; cbn [poll_slots] in H; [inv H; auto|].
  inv1 H. destruct p as [x1 w1]. inv1 H. destruct p as [l1 w2]. inv H.
  pose proof (poll_slots_ext _ _ _ _ _ _ E0) as X. pose proof (reads_ext _ _ _ X HR) as HR1.
  assert (I1 : sinv file (v_ops v) c hist ((done ++ [x1]) ++ l) (snd w1)).
  { rewrite <- app_assoc. cbn [app]. assert (NX : nth_error (done ++ x :: l) (length done) = Some x) by (rewrite nth_error_app2, Nat.sub_diag by lia; reflexivity).
    assert (ES : forall y, set_nth (length done) y (done ++ x :: l) = done ++ y :: l) by (clear; intros y; induction done as [|z d IH]; cbn; [reflexivity|f_equal; exact IH]).
    destruct (is_free x) eqn:FX.
    - unfold poll_slot in E. rewrite FX in E. cbv zeta in E. inv E. exact I.
    - pose proof I as (IA & _). destruct (IA _ x NX FX) as (q & SV). pose proof SV as (V1 & V2 & V3 & V4 & V5 & V6 & V7 & V8 & V9 & V10). rewrite <- (ES x1).
      eapply step_slot; [exact I|reflexivity|exact NX|exact FX|exact SV|]. eapply poll_slot_out; eassumption. }
  destruct (IH _ _ _ _ E0 I1 HR) as (A & B). split; [cbn; congruence|]. rewrite <- app_assoc in B. exact B.
Qed.

Lemma server_poll_inv file o c hist v w now v' w' : head o c v -> sinv file o c hist (v_sess v) (snd w) -> server_poll v w now = Some (v', w') -> reads_from file (snd w') ->
  head o c v' /\ sinv file o c (SPoll now :: hist) (v_sess v') (snd w').
Proof.
  intros (O1 & O2 & O3 & O4 & O5) I H HR. unfold server_poll in H. inv1 H. destruct p as [l1 w1]. inv H.
  destruct (poll_slots_inv file _ c (SPoll now :: hist) v now eq_refl _ [] _ _ _ E) as (A & B); [|exact HR|].
  - eapply sinv_hist; [|exact I]. intros; right; assumption.
  - split; [|exact B]. unfold head. cbn. rewrite A. auto.
Qed.

Lemma server_receive_ext v w local remote buf r v' w' : server_receive v w local remote buf = Some (r, v', w') -> ext w w'.
Proof.
  intros H. unfold server_receive in H. cbv beta zeta in H. inv1 H. rename z into opcode.
  destruct (local =? v_listen v).
  { inv1 H. destruct s as [q|e].
    - destruct (find_by_remote v remote); [inv H; apply adds_refl|]. unfold start_request in H. cbv beta zeta in H. destruct (alloc_session v) as [i|].
      2:{ match type of H with (let '(_, _) := ?e in _) = _ => destruct e as [rs w1] eqn:E1 end. inv H. eapply error_adds; [exact E1|intros; exact Logic.I]. }
      match type of H with (if ?e then _ else _) = _ => destruct e end.
      { match type of H with (let '(_, _) := ?e in _) = _ => destruct e as [rs w1] eqn:E1 end. inv H. eapply error_adds; [exact E1|intros; exact Logic.I]. }
      match type of H with (if ?e then _ else _) = _ => destruct e end.
      { match type of H with (let '(_, _) := ?e in _) = _ => destruct e as [rs w1] eqn:E1 end. inv H. eapply error_adds; [exact E1|intros; exact Logic.I]. }
      match type of H with (let '(_, _) := call ?w ?e in _) = _ => destruct (call w e) as [a w1] eqn:E1 end.
      assert (X1 : ext w w1) by (eapply adds_call; [exact E1|exact Logic.I]).
      destruct (negb (a_rc a =? 0)).
      { match type of H with (let '(_, _) := ?e in _) = _ => destruct e as [rs w2] eqn:E2 end. inv H. eapply adds_trans; [exact X1|]. eapply error_adds; [exact E2|intros; exact Logic.I]. }
      eapply adds_trans; [exact X1|]. destruct (negb (q_opts q =? 0)); [|destruct (q_op q =? OP_WRQ)].
      + inv1 H. destruct s as [pkt|e]; [|inv H; apply sfinish_adds; exact Logic.I]. match type of H with (let '(_, _) := ?e in _) = _ => destruct e as [rs w2] eqn:E9 end. inv H. eapply send_adds; [exact E9|intros; exact Logic.I].
      + match type of H with (let '(_, _) := ?e in _) = _ => destruct e as [rs w2] eqn:E2 end. inv H. eapply send_adds; [exact E2|intros; exact Logic.I].
      + inv1 H. destruct p as [[r2 x2] w2]. inv H. eapply send_window_ext; eassumption.
    - match type of H with (let '(_, _) := ?e in _) = _ => destruct e as [rs w1] eqn:E1 end. inv H. destruct (e =? ERR_UNSUPPORTED); (eapply error_adds; [exact E1|intros; exact Logic.I]). }
  destruct (find_session v local remote) as [i|] eqn:FS.
  2:{ match type of H with (let '(_, _) := ?e in _) = _ => destruct e as [rs w1] eqn:E1 end. inv H. eapply error_adds; [exact E1|intros; exact Logic.I]. }
  apply find_idx_some in FS. destruct FS as (x & _ & NX & PX). rewrite Nat.sub_0_r in NX. apply andb_true_iff in PX. destruct PX as (PX & _). apply andb_true_iff in PX. destruct PX as (FX & _). apply negb_true_iff in FX.
  rewrite (nth_error_nth _ _ sess0 NX) in H. destruct (x_write x) eqn:WR.
  - destruct (opcode =? OP_ERROR); [inv H; apply sfinish_adds; exact Logic.I|]. inv1 H. destruct o as [[block data]|]; [|inv H; apply adds_refl].
    destruct (accept_wrq v x w block data) as [[rs x1] w1] eqn:E1. inv H.
    pose proof (accept_wrq_out (fun _ => []) [] _ _ _ _ _ _ _ _ E1 FX WR) as [(_ & w2 & st & A & ->)|(_ & A & _)].
    + eapply adds_trans; [eapply adds_weak; [|exact A]; intros; exact Logic.I|apply sfinish_adds; exact Logic.I].
    + eapply adds_weak; [|exact A]; intros; exact Logic.I.
  - destruct (opcode =? OP_ERROR); [inv H; apply sfinish_adds; exact Logic.I|]. match type of H with (if ?e then _ else _) = _ => destruct e end; [inv H; apply adds_refl|]. inv1 H.
    match type of H with (if ?e then _ else _) = _ => destruct e end; [inv H; apply adds_refl|].
    match type of H with (if ?e then _ else _) = _ => destruct e end; [inv H; apply sfinish_adds; exact Logic.I|].
    inv1 H. destruct p as [[r2 x2] w2]. inv H. eapply send_window_ext; eassumption.
Qed.
Lemma server_poll_ext v w now v' w' : server_poll v w now = Some (v', w') -> ext w w'.
Proof. intros H. unfold server_poll in H. inv1 H. destruct p as [l1 w1]. inv H. eapply poll_slots_ext; eassumption. Qed.

(** Every reachable state satisfies the invariant. *)
Lemma reach_inv file o c l hist v w : cfg_ok (cfg_defaults c) -> reach o c l hist v w -> sane (snd w) -> reads_from file (snd w) -> head o c v /\ sinv file o c hist (v_sess v) (snd w).
Proof.
  intros HC R. induction R as [|hist v w local remote buf r v' w' R IH HB HL H|hist v w now v' w' R IH H]; intros HS HR.
  - split; [unfold head; cbn; auto|]. split; [|split; [|split; [constructor|split; [exact Logic.I|]]]]; cbn.
    + intros [|[|[|[|i]]]] x N F; cbn in N; try (injection N as <-; discriminate F); destruct i; discriminate.
    + intros [|[|[|[|i]]]] j x y N _ F; cbn in N; try (injection N as <-; discriminate F); destruct i; discriminate.
    + congruence.
  - pose proof (server_receive_ext _ _ _ _ _ _ _ _ H) as X. destruct (IH (sane_ext _ _ X HS) (reads_ext _ _ _ X HR)) as (A & B). eapply server_receive_inv; eassumption.
  - pose proof (server_poll_ext _ _ _ _ _ H) as X. destruct (IH (sane_ext _ _ X HS) (reads_ext _ _ _ X HR)) as (A & B). eapply server_poll_inv; eassumption.
Qed.
