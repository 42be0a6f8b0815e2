(** Invariants of the TCP sender. *)
From Verif Require Import Base ListUtil Seq SeqProps Rto TcpRecv TcpSack TcpRecvProofs TcpSend.

Definition core (s : seg) : Z * list Z := (s_seq s, s_pay s).
Definition cores (q : list seg) : list (Z * list Z) := map core q.
Definition bytes (q : list seg) : list Z := concat (map s_pay q).
(** Segments laid end to end from stream offset [o]. *)
Fixpoint lay (iss o : Z) (q : list seg) : Prop :=
  match q with [] => True | s :: r => s_seq s = sq iss o /\ lay iss (o + slen s) r end.

(** Flags and ghost history: no ACKED descriptor stays queued; a segment not marked
    WAS_RETRANS has been transmitted at most once, at its recorded time. *)
Definition segok (s : seg) : Prop :=
  s_acked s = false /\ (s_was s = false -> s_txs s = if s_sent s || s_retr s then [s_time s] else []).
Definition segok' (s : seg) : Prop := s_was s = false -> s_txs s = if s_sent s || s_retr s || s_acked s then [s_time s] else [].
Lemma segok_weak s : segok s -> segok' s.
Proof. intros (A & B). unfold segok'. rewrite A. intros W. rewrite B by exact W. rewrite orb_false_r. reflexivity. Qed.

Lemma lay_app iss : forall a o b, lay iss o (a ++ b) <-> lay iss o a /\ lay iss (o + zlen (bytes a)) b.
Proof.
  induction a as [|s a IH]; intros o b; cbn [app lay].
  - change (zlen (bytes [])) with 0. rewrite Z.add_0_r. tauto.
  - unfold bytes in *. cbn [map concat]. rewrite zlen_app, IH. fold (slen s). replace (o + (slen s + zlen (concat (map s_pay a)))) with (o + slen s + zlen (concat (map s_pay a))) by lia. tauto.
Qed.
Lemma lay_cores iss : forall a b o, cores a = cores b -> lay iss o a -> lay iss o b.
Proof.
  induction a as [|s a IH]; intros [|s' b] o E H; cbn in E; try discriminate; [exact I|]. injection E as E1 E2 E3. destruct H as [H1 H2]. cbn [lay].
  unfold slen in *. rewrite <- E1, <- E2. split; [exact H1|]. apply IH; assumption.
Qed.
Lemma bytes_cores a b : cores a = cores b -> bytes a = bytes b.
Proof.
  intros E. unfold bytes. f_equal. assert (X : forall l, map s_pay l = map snd (cores l)) by (intros l; unfold cores; rewrite map_map; reflexivity). rewrite !X, E. reflexivity.
Qed.
Lemma bytes_app a b : bytes (a ++ b) = bytes a ++ bytes b.
Proof. unfold bytes. rewrite map_app, concat_app. reflexivity. Qed.

(** [drops q q']: q' is q, possibly with changed flags, minus a head part. *)
Definition drops (q q' : list seg) : Prop := exists a b, q = a ++ b /\ cores b = cores q'.
Lemma drops_refl q : drops q q. Proof. exists [], q. split; reflexivity. Qed.
Lemma drops_trans q1 q2 q3 : drops q1 q2 -> drops q2 q3 -> drops q1 q3.
Proof.
  intros (a & b & -> & E) (c & d & -> & F).
  assert (X : exists b1 b2, b = b1 ++ b2 /\ cores b1 = cores c /\ cores b2 = cores d).
  { exists (firstn (length c) b), (skipn (length c) b). rewrite firstn_skipn. split; [reflexivity|]. unfold cores in *. rewrite <- firstn_map, <- skipn_map, E, map_app.
    rewrite <- (map_length core c) at 1. rewrite firstn_app, firstn_all2, Nat.sub_diag by lia. cbn [firstn]. rewrite app_nil_r. split; [reflexivity|].
    rewrite <- (map_length core c). rewrite skipn_app, skipn_all, Nat.sub_diag. reflexivity. }
  destruct X as (b1 & b2 & -> & E1 & E2). exists (a ++ b1), b2. split; [apply app_assoc|congruence].
Qed.
Lemma drops_cores q q' : cores q = cores q' -> drops q q'. Proof. intros E. exists [], q. split; [reflexivity|exact E]. Qed.
Lemma drops_tl s q : drops (s :: q) q. Proof. exists [s], q. split; reflexivity. Qed.

(** ** Marking for retransmission *)
Definition fl (s s' : seg) : Prop := s' = s \/ (s_sent s = true /\ s_pay s <> [] /\ s' = mark_seg s).
Lemma fl_refl q : Forall2 fl q q. Proof. induction q; constructor; [left; reflexivity|assumption]. Qed.
Lemma fl_trans1 x y z : fl x y -> fl y z -> fl x z.
Proof. intros [-> |(A & B & ->)] K; [exact K|]. destruct K as [-> |(C & _)]; [right; auto|discriminate C]. Qed.
Lemma fl_trans : forall q1 q2 q3, Forall2 fl q1 q2 -> Forall2 fl q2 q3 -> Forall2 fl q1 q3.
Proof.
  intros q1 q2 q3 H. revert q3. induction H as [|x y l l' A B IH]; intros q3 K; inversion K as [|? z ? l3 K1 K2]; subst; constructor; [eapply fl_trans1; eassumption|apply IH; assumption].
Qed.
Lemma fl_cores q q' : Forall2 fl q q' -> cores q = cores q'.
Proof. induction 1 as [|s s' q q' H _ IH]; [reflexivity|]. unfold cores in *. cbn [map]. rewrite IH. destruct H as [-> |(_ & _ & ->)]; reflexivity. Qed.
Lemma fl_ok s s' : fl s s' -> segok s -> segok s'.
Proof. intros [-> |(A & _ & ->)] (B & C); [split; assumption|]. split; [exact B|]. unfold mark_seg. cbn. intros W. rewrite C by exact W. rewrite A. reflexivity. Qed.
Lemma fl_ok' s s' : fl s s' -> segok' s -> segok' s'.
Proof. intros [-> |(A & _ & ->)] C; [assumption|]. unfold segok' in *. unfold mark_seg. cbn. intros W. rewrite C by exact W. rewrite A. reflexivity. Qed.
Lemma slen_zero s : slen s = 0 <-> s_pay s = [].
Proof. unfold slen. split; [apply zlen_zero|intros ->; reflexivity]. Qed.
Lemma mark_scan_fl ps ack : forall l, Forall2 fl l (snd (mark_scan ps ack l)).
Proof.
  induction l as [|s l IH]; [constructor|]. cbn [mark_scan]. destruct (mark_scan ps ack l) as [m r'] eqn:E. cbn [snd] in IH.
  assert (SK : Forall2 fl (s :: l) (s :: r')) by (constructor; [left; reflexivity|exact IH]).
  destruct (Z.eqb_spec (slen s) 0) as [Z0|Z0]; [exact SK|]. destruct (tcp_seq_leq (tcp_seq_inc (s_seq s) (slen s)) ack); [exact SK|]. destruct (is_range_sacked ps (s_seq s) (tcp_seq_inc (s_seq s) (slen s))); [exact SK|].
  destruct (tcp_seq_leq (s_seq s) ack && tcp_seq_lt ack (tcp_seq_inc (s_seq s) (slen s))); [|exact SK].
  destruct (s_sent s) eqn:ES; cbn [negb snd]; [|apply fl_refl]. constructor; [right; split; [exact ES|]; split; [intros N; apply Z0, slen_zero, N|reflexivity]|apply fl_refl].
Qed.
(** What an acknowledgement or timeout handler leaves alone. *)
Definition frame (t : tcb) := (t_nxt t, t_st t, t_ctrl t, t_special t, t_mss t, t_now t, t_rwnd t, t_sackok t).
Lemma mark_unsacked_frame t ack : Forall2 fl (t_q t) (t_q (fst (mark_unsacked t ack))) /\ frame (fst (mark_unsacked t ack)) = frame t /\ t_una (fst (mark_unsacked t ack)) = t_una t /\ t_tmr (fst (mark_unsacked t ack)) = t_tmr t /\ t_rto (fst (mark_unsacked t ack)) = t_rto t.
Proof.
  unfold mark_unsacked. pose proof (mark_scan_fl (t_psack t) ack (t_q t)) as F1. pose proof (mark_scan_fl [] ack (t_q t)) as F2.
  destruct (mark_scan (t_psack t) ack (t_q t)) as [m q1]. destruct (mark_scan [] ack (t_q t)) as [m2 q2]. cbn [snd] in *.
  destruct m; [destruct (t_psack t); [|destruct m2]| |]; cbn; (split; [first [exact F1|exact F2|apply fl_refl]|repeat split]).
Qed.

Lemma Forall2_in_r {A B} (R : A -> B -> Prop) : forall a b y, Forall2 R a b -> In y b -> exists x, In x a /\ R x y.
Proof. intros a b y H. induction H as [|x z l l' H H' IH]; intros I0; [destruct I0|]. destruct I0 as [-> |I0]; [exists x; split; [left; reflexivity|exact H]|]. destruct (IH I0) as (x0 & A0 & B0). exists x0. split; [right; exact A0|exact B0]. Qed.
(** ** Acknowledgement *)
Definition covered (ack : Z) (s : seg) : Prop := s_sent s = true /\ s_pay s <> [] /\ tcp_seq_leq (u32 (s_seq s + slen s)) ack = true.
Lemma ack_scan_spec ack : forall l m0 n q' n', ack_scan ack (map ack_seg m0) l n = (q', n') -> Forall (covered ack) m0 ->
  exists dr oa rest, m0 ++ l = dr ++ oa ++ rest /\ q' = map ack_seg oa ++ rest /\
    Forall (fun s => (s_pay s = [] /\ s_sent s = true) \/ covered ack s) dr /\ Forall (covered ack) oa /\ n <= n' /\ (m0 = [] -> n' = n -> oa = []) /\
    match rest with [] => True | s :: _ => s_sent s = false \/ (s_pay s = [] /\ oa <> []) \/ (s_pay s <> [] /\ tcp_seq_leq (u32 (s_seq s + slen s)) ack = false) end.
Proof.
  induction l as [|s l IH]; intros m0 n q' n' E HM; cbn [ack_scan] in E.
  - assert (q' = map ack_seg m0 /\ n' = n) as [-> ->] by (split; congruence). exists [], m0, []. rewrite !app_nil_r.
    split; [reflexivity|]. split; [reflexivity|]. split; [constructor|]. split; [exact HM|]. split; [lia|]. split; [auto|exact I].
  - destruct (s_sent s) eqn:ES; cbn [negb] in E.
    2:{ assert (q' = map ack_seg m0 ++ s :: l /\ n' = n) as [-> ->] by (split; congruence). exists [], m0, (s :: l).
        split; [reflexivity|]. split; [reflexivity|]. split; [constructor|]. split; [exact HM|]. split; [lia|]. split; [auto|left; exact ES]. }
    destruct (Z.eqb_spec (slen s) 0) as [Z0|Z0].
    + apply slen_zero in Z0. destruct m0 as [|m [|m2 ms]]; cbn [map] in E.
      * destruct (IH [] n q' n' E (Forall_nil _)) as (dr & oa & rest & E1 & E2 & E3 & E4 & E5 & E6 & E7). cbn [app] in *.
        exists (s :: dr), oa, rest. split; [cbn; rewrite E1; reflexivity|]. split; [exact E2|]. split; [constructor; [auto|exact E3]|]. auto.
      * destruct (IH [] n q' n' E (Forall_nil _)) as (dr & oa & rest & E1 & E2 & E3 & E4 & E5 & E6 & E7). cbn [app] in *. apply Forall_inv in HM.
        exists (m :: s :: dr), oa, rest. split; [cbn; rewrite E1; reflexivity|]. split; [exact E2|]. split; [constructor; [auto|constructor; [auto|exact E3]]|]. split; [exact E4|]. split; [exact E5|]. split; [discriminate|exact E7].
      * change ((map ack_seg (m2 :: ms) ++ s :: l, n) = (q', n')) in E. assert (q' = map ack_seg (m2 :: ms) ++ s :: l /\ n' = n) as [-> ->] by (split; congruence). inversion HM; subst. exists [m], (m2 :: ms), (s :: l).
        split; [reflexivity|]. split; [reflexivity|]. split; [constructor; [auto|constructor]|]. split; [assumption|]. split; [lia|]. split; [discriminate|right; left; split; [exact Z0|discriminate]].
    + assert (NP : s_pay s <> []) by (intros N; apply Z0, slen_zero, N). destruct (tcp_seq_leq (u32 (s_seq s + slen s)) ack) eqn:EA.
      * replace (map ack_seg m0 ++ [ack_seg s]) with (map ack_seg (m0 ++ [s])) in E by (rewrite map_app; reflexivity).
        destruct (IH (m0 ++ [s]) (n + 1) q' n' E) as (dr & oa & rest & E1 & E2 & E3 & E4 & E5 & E6 & E7).
        { apply Forall_app. split; [exact HM|constructor; [repeat split; assumption|constructor]]. }
        rewrite <- app_assoc in E1. cbn [app] in E1. exists dr, oa, rest. split; [exact E1|]. split; [exact E2|]. split; [exact E3|]. split; [exact E4|]. split; [lia|]. split; [intros _ X; lia|exact E7].
      * assert (q' = map ack_seg m0 ++ s :: l /\ n' = n) as [-> ->] by (split; congruence). exists [], m0, (s :: l).
        split; [reflexivity|]. split; [reflexivity|]. split; [constructor|]. split; [exact HM|]. split; [lia|]. split; [auto|right; right; auto].
Qed.
Lemma cores_ack oa : cores (map ack_seg oa) = cores oa.
Proof. unfold cores. rewrite map_map. reflexivity. Qed.

Lemma ack_advance_frame t ack : Forall2 fl (t_q t) (t_q (fst (ack_advance t ack))) /\ frame (fst (ack_advance t ack)) = frame t /\ t_una (fst (ack_advance t ack)) = ack.
Proof.
  unfold ack_advance. cbn zeta. set (b := t_fr _). destruct b; [|cbn [fst]; split; [apply fl_refl|split; reflexivity]].
  set (c := tcp_seq_lt _ _). destruct c; [|cbn [fst]; split; [apply fl_refl|split; reflexivity]].
  match goal with |- context [mark_unsacked ?u ack] => pose proof (mark_unsacked_frame u ack) as (A & B & C & _); set (v := u) in * end. cbn [fst]. split; [exact A|]. split; [rewrite B; reflexivity|rewrite C; reflexivity].
Qed.
Lemma cwnd_grow_frame t i b a : t_q (cwnd_grow t i b a) = t_q t /\ frame (cwnd_grow t i b a) = frame t /\ t_una (cwnd_grow t i b a) = t_una t.
Proof. unfold cwnd_grow. repeat (match goal with |- context [if ?c then _ else _] => destruct c end); repeat split. Qed.
Lemma dup_ack_frame t a i w : Forall2 fl (t_q t) (t_q (dup_ack t a i w)) /\ frame (dup_ack t a i w) = frame t /\ t_una (dup_ack t a i w) = t_una t.
Proof.
  unfold dup_ack. destruct (negb (a_ack a =? t_una t) || (i =? 0) || (0 <? a_paylen a) || w); [split; [apply fl_refl|split; reflexivity]|]. cbn zeta.
  set (t1 := upd_dup t _ _ _). set (early := match rev _ with [] => _ | _ => _ end).
  assert (X : exists t2 done, (if early then let '(t', ok) := mark_unsacked t1 (a_ack a) in if ok then (upd_dup t' (t_dup t') true (a_ack a), true) else (t', false) else (t1, false)) = (t2, done) /\
     (done = true \/ t2 = fst (mark_unsacked t1 (a_ack a)) \/ t2 = t1) /\
     Forall2 fl (t_q t) (t_q t2) /\ frame t2 = frame t /\ t_una t2 = t_una t).
  { destruct early.
    - pose proof (mark_unsacked_frame t1 (a_ack a)) as (A & B & C & _). destruct (mark_unsacked t1 (a_ack a)) as [t' ok]. cbn [fst] in *. destruct ok; (eexists; eexists; split; [reflexivity|]).
      + split; [auto|]. split; [exact A|]. split; [transitivity (frame t'); [reflexivity|exact B]|exact C].
      + split; [auto|]. split; [exact A|]. split; [exact B|exact C].
    - exists t1, false. split; [reflexivity|]. split; [auto|]. split; [apply fl_refl|split; reflexivity]. }
  destruct X as (t2 & done & -> & X1 & X2 & X3 & X4). destruct done; [auto|]. destruct (t_dup t2 <? 3); [auto|]. destruct (t_dup t2 =? 3).
  - match goal with |- context [mark_unsacked ?u (a_ack a)] => pose proof (mark_unsacked_frame u (a_ack a)) as (A & B & C & _); set (v := u) in * end.
    split; [eapply fl_trans; [exact X2|exact A]|]. split; [rewrite B; exact X3|rewrite C; exact X4].
  - split; [exact X2|]. split; [exact X3|exact X4].
Qed.
Lemma pop_acked_spec : forall a b last, Forall (fun s => s_acked s = true) a -> (match b with [] => True | s :: _ => s_acked s = false end) ->
  pop_acked (a ++ b) last = (b, match rev a with [] => last | s :: _ => Some s end).
Proof.
  induction a as [|s a IH]; intros b last HA HB; cbn [app rev pop_acked].
  - destruct b as [|s b]; [reflexivity|]. cbn. rewrite HB. reflexivity.
  - inversion HA; subst. cbn [pop_acked]. rewrite H1. rewrite IH by assumption. f_equal. destruct (rev a) as [|x r]; reflexivity.
Qed.
Lemma Forall2_app_inv {A B} (R : A -> B -> Prop) : forall a b c, Forall2 R (a ++ b) c -> exists c1 c2, c = c1 ++ c2 /\ Forall2 R a c1 /\ Forall2 R b c2.
Proof. intros a b c H. apply Forall2_app_inv_l in H. destruct H as (c1 & c2 & H1 & H2 & ->). exists c1, c2. auto. Qed.

(** Everything one acknowledgement does to the queue: the removed head part consists of
    empty segments and of sent segments it covers; what is left keeps contents and order;
    the first segment left was not sent, or is not covered, or is an empty one. *)
Lemma tcp_ack_spec t a t' r : tcp_ack t a = (t', r) -> Forall segok (t_q t) ->
  exists rm rest, t_q t = rm ++ rest /\ Forall2 fl rest (t_q t') /\
    Forall (fun s => s_pay s = [] \/ covered (a_ack a) s) rm /\
    (match rest with [] => True | s :: _ => s_sent s = false \/ s_pay s = [] \/ tcp_seq_leq (u32 (s_seq s + slen s)) (a_ack a) = false end) /\
    frame t' = frame t /\
    t_una t' = (if negb (t_una t =? a_ack a) && tcp_seq_leq (t_una t) (a_ack a) && tcp_seq_leq (a_ack a) (t_nxt t) then a_ack a else t_una t) /\
    (forall x, r = Some x -> exists s, In s rm /\ covered (a_ack a) s /\ s_was s = false /\
       (a_ts a = Some x \/ (a_ts a = None /\ s_time s <= t_now t /\ x = u32 (t_now t - s_time s)))).
Proof.
  intros E HK. unfold tcp_ack in E. cbn zeta in E. set (t1 := process_sack (upd_lastwin t (a_win a)) (a_sack a)) in *.
  assert (T1 : t_q t1 = t_q t /\ frame t1 = frame t /\ t_una t1 = t_una t) by (unfold t1, process_sack; cbn; destruct (t_sackok t); repeat split).
  destruct T1 as (Tq & Tf & Tu). destruct (ack_scan (a_ack a) [] (t_q t1) 0) as [q1 n] eqn:ESC. rewrite Tq in ESC.
  destruct (ack_scan_spec (a_ack a) (t_q t) [] 0 q1 n ESC (Forall_nil _)) as (dr & oa & rest & S1 & S2 & S3 & S4 & S5 & S6 & S7). cbn [app] in S1.
  set (t2 := upd_q t1 q1) in *. replace (t_una t2) with (t_una t) in E by (unfold t2; cbn; congruence). assert (TN : t_nxt t1 = t_nxt t) by (unfold frame in Tf; congruence). replace (t_nxt t2) with (t_nxt t) in E by (unfold t2; cbn; congruence).
  set (adv := negb (t_una t =? a_ack a) && tcp_seq_leq (t_una t) (a_ack a) && tcp_seq_leq (a_ack a) (t_nxt t)) in *.
  assert (A : exists t3 bl, (if adv then ack_advance t2 (a_ack a) else (t2, false)) = (t3, bl) /\ Forall2 fl q1 (t_q t3) /\ frame t3 = frame t /\ t_una t3 = if adv then a_ack a else t_una t).
  { assert (F2 : frame t2 = frame t) by (rewrite <- Tf; reflexivity). destruct adv.
    - destruct (ack_advance_frame t2 (a_ack a)) as (A1 & A2 & A3). destruct (ack_advance t2 (a_ack a)) as [t3 bl]. cbn [fst] in *. exists t3, bl. split; [reflexivity|]. split; [exact A1|]. split; [congruence|exact A3].
    - exists t2, false. split; [reflexivity|]. split; [apply fl_refl|]. split; [exact F2|]. unfold t2. cbn. exact Tu. }
  destruct A as (t3 & bl & A0 & A1 & A2 & A3). rewrite A0 in E.
  rewrite S2 in A1. apply Forall2_app_inv in A1. destruct A1 as (c1 & c2 & C0 & C1 & C2).
  assert (CE : c1 = map ack_seg oa).
  { clear - C1. remember (map ack_seg oa) as l eqn:L. revert oa L. induction C1 as [|x y l l' H H' IH]; intros oa L; [reflexivity|]. destruct oa as [|o oa]; [discriminate|]. cbn in L. injection L as -> ->.
    destruct H as [-> |(H & _)]; [|discriminate H]. f_equal. exact (IH oa eq_refl). }
  assert (KR : Forall segok rest) by (rewrite S1 in HK; apply Forall_app in HK; destruct HK as [_ HK]; apply Forall_app in HK; tauto).
  assert (RM : Forall (fun s => s_pay s = [] \/ covered (a_ack a) s) (dr ++ oa)).
  { apply Forall_app. split; [eapply Forall_impl; [|exact S3]; intros x [[X _]|X]; auto|eapply Forall_impl; [|exact S4]; auto]. }
  assert (HD : match rest with [] => True | s :: _ => s_sent s = false \/ s_pay s = [] \/ tcp_seq_leq (u32 (s_seq s + slen s)) (a_ack a) = false end).
  { destruct rest as [|s0 rest0]; [exact I|]. destruct S7 as [X|[[X _]|[_ X]]]; auto. }
  destruct (Z.ltb_spec 0 n) as [L|L].
  - assert (P1 : pop_acked (t_q t3) None = (c2, match rev (map ack_seg oa) with [] => None | s :: _ => Some s end)).
    { rewrite C0, CE. apply pop_acked_spec; [apply Forall_forall; intros x Ix; apply in_map_iff in Ix; destruct Ix as (y & <- & _); reflexivity|].
      inversion C2 as [|x y l l' H H' X Y]; subst; [exact I|]. inversion KR as [|? ? K1 K2]; subst. destruct (fl_ok _ _ H K1) as [K _]. exact K. }
    rewrite P1 in E. destruct (rev (map ack_seg oa)) as [|s rr] eqn:ER.
    + assert (t' = upd_q t3 c2 /\ r = None) as [-> ->] by (split; congruence). exists (dr ++ oa), rest. rewrite <- app_assoc. split; [exact S1|]. split; [exact C2|]. split; [exact RM|]. split; [exact HD|].
      split; [exact A2|]. split; [exact A3|discriminate].
    + set (t4 := upd_q t3 c2) in *. set (sample := if s_was s then None else _) in *.
      set (t5 := match sample with Some r => upd_tm t4 (t_backoff t4) (rto_update (t_rto t4) r) (t_tmr t4) | None => t4 end) in *.
      assert (T5 : t_q t5 = c2 /\ frame t5 = frame t /\ t_una t5 = if adv then a_ack a else t_una t) by (unfold t5; destruct sample; (split; [reflexivity|]; split; [exact A2|exact A3])).
      destruct T5 as (T5q & T5f & T5u). destruct (cwnd_grow_frame t5 (t_infl t) bl adv) as (G1 & G2 & G3).
      assert (t' = cwnd_grow t5 (t_infl t) bl adv /\ r = sample) as [-> ->] by (split; congruence).
      exists (dr ++ oa), rest. rewrite <- app_assoc. split; [exact S1|]. split; [rewrite G1, T5q; exact C2|]. split; [exact RM|]. split; [exact HD|].
      split; [congruence|]. split; [congruence|]. intros x SX.
      assert (IS : In s (map ack_seg oa)) by (apply in_rev; rewrite ER; left; reflexivity). apply in_map_iff in IS. destruct IS as (s0 & <- & I0). exists s0. split; [apply in_or_app; right; exact I0|].
      rewrite Forall_forall in S4. split; [apply S4; exact I0|]. unfold sample in SX. cbn [s_was ack_seg] in SX. destruct (s_was s0); [discriminate|]. split; [reflexivity|].
      destruct (a_ts a) as [x'|]; [left; exact SX|]. right. split; [reflexivity|]. assert (TNOW : t_now t4 = t_now t) by (unfold frame in A2; unfold t4; cbn; congruence).
      rewrite TNOW in SX. cbn [s_time ack_seg] in SX. destruct (Z.leb_spec (s_time s0) (t_now t)); [|discriminate]. split; [assumption|congruence].
  - assert (OA : oa = []) by (apply S6; [reflexivity|lia]). subst oa. cbn [map app] in *. destruct (dup_ack_frame t3 a (t_infl t) (negb (a_win a =? t_lastwin t))) as (D1 & D2 & D3).
    assert (c1 = []) as -> by (inversion C1; reflexivity). cbn [app] in C0.
    assert (t' = dup_ack t3 a (t_infl t) (negb (a_win a =? t_lastwin t)) /\ r = None) as [-> ->] by (split; congruence).
    exists dr, rest. rewrite app_nil_r in RM. split; [exact S1|]. split.
    { rewrite C0 in D1. eapply fl_trans; eassumption. }
    split; [exact RM|]. split; [exact HD|]. split; [congruence|]. split; [congruence|discriminate].
Qed.

(** ** Transmission *)
Lemma cores_set_nth i s s' q : nth_error q i = Some s -> core s' = core s -> cores (set_nth i s' q) = cores q.
Proof.
  revert i. induction q as [|x q IH]; intros [|i] E C; cbn in E; try discriminate.
  - assert (x = s) by congruence. subst. cbn. rewrite C. reflexivity.
  - unfold cores in *. cbn. rewrite IH by assumption. reflexivity.
Qed.
Lemma Forall_set_nth {A} (P : A -> Prop) (v : A) l i : Forall P l -> P v -> Forall P (set_nth i v l).
Proof. intros H V. apply Forall_forall. intros x I0. apply set_nth_in in I0. rewrite Forall_forall in H. destruct I0 as [-> |I0]; auto. Qed.
Lemma sent_ok now s : s_sent s = false -> segok s -> segok (sent_seg now s).
Proof.
  intros NS (A & B). unfold sent_seg. split; [exact A|]. cbn. intros W. apply orb_false_iff in W. destruct W as [W1 W2]. rewrite B by exact W1. rewrite NS, W2. reflexivity.
Qed.
(** Every frame sent is a queued segment; the queue only loses head segments. *)
Lemma flush_loop_spec : forall f t c oks t' o, flush_loop f t c oks = (t', o) -> Forall segok (t_q t) ->
  drops (t_q t) (t_q t') /\ Forall segok (t_q t') /\ frame t' = frame t /\ t_una t' = t_una t /\
  Forall (fun x => In (x_seq x, x_pay x) (cores (t_q t)) \/ exists s, c = Popped s /\ core s = (x_seq x, x_pay x)) o.
Proof.
  induction f as [|f IH]; intros t c oks t' o E HK; cbn [flush_loop] in E.
  { assert (t' = t /\ o = []) as [-> ->] by (split; congruence). repeat split; [apply drops_refl|exact HK|constructor]. }
  destruct (cur_seg (t_q t) c) as [s|] eqn:EC.
  2:{ assert (t' = t /\ o = []) as [-> ->] by (split; congruence). repeat split; [apply drops_refl|exact HK|constructor]. }
  set (next := match c with At i => At (S i) | Popped _ => At 0 end) in *.
  assert (NX : forall s0, next <> Popped s0) by (unfold next; destruct c; discriminate).
  assert (CIN : In (s_seq s, s_pay s) (cores (t_q t)) \/ exists s0, c = Popped s0 /\ core s0 = (s_seq s, s_pay s)).
  { destruct c as [i|s0]; cbn in EC; [left; apply in_map_iff; exists s; split; [reflexivity|eapply nth_error_In; exact EC]|right; exists s0; split; [reflexivity|]; assert (s0 = s) by congruence; subst; reflexivity]. }
  destruct (s_sent s) eqn:ES.
  { destruct (IH _ _ _ _ _ E HK) as (I1 & I2 & I3 & I4 & I5). split; [exact I1|]. split; [exact I2|]. split; [exact I3|]. split; [exact I4|]. eapply Forall_impl; [|exact I5]. intros x [X|(s0 & X & _)]; [left; exact X|destruct (NX _ X)]. }
  destruct oks as [|[|] oks']; try (assert (t' = t /\ o = []) as [-> ->] by (split; congruence); repeat split; [apply drops_refl|exact HK|constructor]).
  cbn zeta in E. destruct (s_retr s || (slen s =? 0) || ((t_infl t <? Z.min (t_cwnd t) (t_rwnd t)) && (slen s <=? Z.min (t_cwnd t) (t_rwnd t) - t_infl t))) eqn:EG.
  - set (t1 := match c with At i => upd_q t (set_nth i (sent_seg (t_now t) s) (t_q t)) | Popped _ => t end) in *.
    assert (T1 : cores (t_q t1) = cores (t_q t) /\ Forall segok (t_q t1) /\ frame t1 = frame t /\ t_una t1 = t_una t).
    { unfold t1. destruct c as [i|s0]; [|repeat split; exact HK]. cbn [t_q upd_q]. cbn in EC. split; [eapply cores_set_nth; [exact EC|reflexivity]|]. split; [|split; reflexivity].
      apply Forall_set_nth; [exact HK|]. apply sent_ok; [exact ES|]. rewrite Forall_forall in HK. apply HK. eapply nth_error_In. exact EC. }
    destruct T1 as (T1 & T2 & T3 & T4). destruct (slen s =? 0).
    + destruct (t_q t1) as [|h r] eqn:EQ.
      * assert (t' = t1 /\ o = [mkTx (s_seq s) (s_pay s) (s_retr s)]) as [-> ->] by (split; congruence).
        split; [apply drops_cores; rewrite EQ; symmetry; exact T1|]. split; [rewrite EQ; constructor|]. split; [exact T3|]. split; [exact T4|]. constructor; [exact CIN|constructor].
      * destruct (flush_loop f (upd_q t1 r) (Popped h) oks') as [t2 o2] eqn:EF. assert (t' = t2 /\ o = mkTx (s_seq s) (s_pay s) (s_retr s) :: o2) as [-> ->] by (split; congruence).
        apply Forall_inv_tail in T2 as T2r. apply Forall_inv in T2 as T2h.
        destruct (IH _ _ _ _ _ EF T2r) as (I1 & I2 & I3 & I4 & I5). cbn [t_q upd_q] in *.
        split; [eapply drops_trans; [apply drops_cores; symmetry; exact T1|]; eapply drops_trans; [apply drops_tl|exact I1]|].
        split; [exact I2|]. split; [rewrite I3, <- T3; reflexivity|]. split; [rewrite I4, <- T4; reflexivity|]. constructor; [exact CIN|].
        eapply Forall_impl; [|exact I5]. intros x HX. left. rewrite <- T1. destruct HX as [X|(s0 & X & Y)]; [right; exact X|]. assert (h = s0) by congruence. subst h. left. exact Y.
    + set (t2 := upd_tm t1 _ _ _) in *. set (t3 := if s_retr s then t2 else _) in *.
      assert (U : t_q t3 = t_q t1 /\ frame t3 = frame t /\ t_una t3 = t_una t) by (unfold t3, t2; destruct (s_retr s); (split; [reflexivity|]; split; [exact T3|exact T4])). destruct U as (U1 & U2 & U3).
      destruct (flush_loop f t3 next oks') as [t4 o2] eqn:EF. assert (t' = t4 /\ o = mkTx (s_seq s) (s_pay s) (s_retr s) :: o2) as [-> ->] by (split; congruence).
      destruct (IH _ _ _ _ _ EF ltac:(rewrite U1; exact T2)) as (I1 & I2 & I3 & I4 & I5). rewrite U1 in *.
      split; [eapply drops_trans; [apply drops_cores; symmetry; exact T1|exact I1]|]. split; [exact I2|]. split; [congruence|]. split; [congruence|]. constructor; [exact CIN|].
      eapply Forall_impl; [|exact I5]. intros x [X|(s0 & X & _)]; [left; rewrite <- T1; exact X|destruct (NX _ X)].
  - destruct (find_retr (skipn _ (t_q t)) _) as [j|].
    + destruct (IH _ _ _ _ _ E HK) as (I1 & I2 & I3 & I4 & I5). split; [exact I1|]. split; [exact I2|]. split; [exact I3|]. split; [exact I4|]. eapply Forall_impl; [|exact I5]. intros x [X|(s0 & X & _)]; [left; exact X|discriminate].
    + assert (t' = t /\ o = []) as [-> ->] by (split; congruence). repeat split; [apply drops_refl|exact HK|constructor].
Qed.
Lemma resync_frame t : t_q (resync t) = t_q t /\ frame (resync t) = frame t /\ t_una (resync t) = t_una t.
Proof. unfold resync. destruct (ctrl_needs t || t_ctrl t); [repeat split|]. cbn zeta. destruct (t_special _); [repeat split|]. destruct (t_tmr _); destruct (0 <? _); repeat split. Qed.

(** ** Sending *)
Lemma zfirstn_skipn {A} n (l : list A) : zfirstn n l ++ zskipn n l = l. Proof. apply firstn_skipn. Qed.
Lemma zlen_zfirstn {A} n (l : list A) : 0 <= n <= zlen l -> zlen (zfirstn n l) = n.
Proof. intros H. unfold zfirstn, zlen in *. rewrite firstn_length. lia. Qed.
Lemma zlen_zskipn {A} n (l : list A) : 0 <= n <= zlen l -> zlen (zskipn n l) = zlen l - n.
Proof. intros H. unfold zskipn, zlen in *. rewrite skipn_length. lia. Qed.
Lemma firstn_plus {A} : forall a b (l : list A), firstn (a + b) l = firstn a l ++ firstn b (skipn a l).
Proof. induction a as [|a IH]; intros b l; [reflexivity|]. destruct l as [|x l]; [cbn; rewrite firstn_nil; reflexivity|]. cbn. rewrite IH. reflexivity. Qed.
Lemma send_loop_spec iss cap : forall f nxt data rooms segs nxt' n o, send_loop f nxt data cap rooms = (segs, nxt', n) -> nxt = sq iss o ->
  0 <= n <= zlen data /\ bytes segs = zfirstn n data /\ lay iss o segs /\ nxt' = sq iss (o + n) /\
  Forall segok segs /\ Forall (fun s => s_pay s <> [] /\ slen s <= cap /\ s_sent s = false /\ s_retr s = false) segs.
Proof.
  induction f as [|f IH]; intros nxt data rooms segs nxt' n o E EN; cbn [send_loop] in E.
  { assert (segs = [] /\ nxt' = nxt /\ n = 0) as (-> & -> & ->) by (repeat split; congruence). pose proof (zlen_nonneg data). split; [lia|]. rewrite Z.add_0_r. repeat split; auto; constructor. }
  destruct rooms as [|room rooms].
  { assert (segs = [] /\ nxt' = nxt /\ n = 0) as (-> & -> & ->) by (repeat split; congruence). pose proof (zlen_nonneg data). split; [lia|]. rewrite Z.add_0_r. repeat split; auto; constructor. }
  destruct data as [|d0 data0].
  { assert (segs = [] /\ nxt' = nxt /\ n = 0) as (-> & -> & ->) by (repeat split; congruence). change (zlen (@nil Z)) with 0. split; [lia|]. rewrite Z.add_0_r. repeat split; auto; constructor. }
  set (data := d0 :: data0) in *. cbn zeta in E. set (pl := Z.max 0 (Z.min room (Z.min cap (zlen data)))) in *. pose proof (zlen_nonneg data) as ZN.
  destruct (Z.eqb_spec pl 0) as [P0|P0].
  { assert (segs = [] /\ nxt' = nxt /\ n = 0) as (-> & -> & ->) by (repeat split; congruence). split; [lia|]. rewrite Z.add_0_r. repeat split; auto; constructor. }
  assert (PL : 0 < pl <= zlen data /\ pl <= cap) by (unfold pl in *; lia). clearbody pl.
  destruct (send_loop f (u32 (nxt + pl)) (zskipn pl data) cap rooms) as [[sg nx] m] eqn:ER.
  assert (E1 : segs = new_seg nxt (zfirstn pl data) :: sg) by congruence. assert (E2 : nxt' = nx) by congruence. assert (E3 : n = pl + m) by congruence. clear E. subst segs nxt' n.
  assert (EN' : u32 (nxt + pl) = sq iss (o + pl)) by (rewrite EN; unfold sq, u32; rewrite Zplus_mod_idemp_l; f_equal; lia).
  destruct (IH _ _ _ _ _ _ (o + pl) ER EN') as (I1 & I2 & I3 & I4 & I5 & I6). rewrite zlen_zskipn in I1 by lia.
  assert (SL : zlen (zfirstn pl data) = pl) by (apply zlen_zfirstn; lia).
  split; [lia|]. split.
  { unfold bytes in *. cbn [map concat new_seg s_pay]. rewrite I2. unfold zfirstn, zskipn. replace (Z.to_nat (pl + m)) with (Z.to_nat pl + Z.to_nat m)%nat by lia.
    symmetry. apply firstn_plus. }
  split; [cbn [lay new_seg s_seq]; unfold slen; cbn [s_pay new_seg]; rewrite SL; split; [exact EN|exact I3]|]. split; [rewrite I4; f_equal; lia|].
  split; [constructor; [split; [reflexivity|reflexivity]|exact I5]|]. constructor; [|exact I6]. unfold slen, new_seg. cbn [s_pay s_sent s_retr]. rewrite SL. split; [|repeat split; lia].
  intros N. rewrite N in SL. change (zlen (@nil Z)) with 0 in SL. lia.
Qed.

(** ** Retransmission timeout *)
Lemma rto_cb_spec t room g t' : tcp_rto_cb t room g = Some t' -> Forall segok (t_q t) ->
  (t_nxt t' = t_nxt t /\ t_una t' = t_una t /\ Forall segok (t_q t')) /\
  ((exists q, Forall2 fl (t_q t) q /\ t_q t' = q) \/ (room = true /\ ctrl_needs t = true /\ t_q t' = t_q t ++ [new_seg (t_nxt t) []])).
Proof.
  intros E HK. unfold tcp_rto_cb in E. cbn zeta in E. set (t1 := upd_tm t (t_backoff t) (t_rto t) TStale) in *.
  assert (CN : ctrl_needs t1 = ctrl_needs t) by reflexivity. rewrite CN in E. change (t_ctrl t1) with (t_ctrl t) in E. change (t_st t1) with (t_st t) in E.
  assert (SAME : forall u, t_q u = t_q t -> t_nxt u = t_nxt t -> t_una u = t_una t -> (t_nxt u = t_nxt t /\ t_una u = t_una t /\ Forall segok (t_q u)) /\ ((exists q, Forall2 fl (t_q t) q /\ t_q u = q) \/ (room = true /\ ctrl_needs t = true /\ t_q u = t_q t ++ [new_seg (t_nxt t) []]))).
  { intros u A B C. rewrite A. split; [auto|]. left. exists (t_q t). split; [apply fl_refl|reflexivity]. }
  destruct (ctrl_needs t || t_ctrl t) eqn:EC.
  - destruct (ctrl_needs t) eqn:EN; cbn [negb] in E.
    + destruct g; [discriminate|]. apply some_inj in E. subst t'. destruct room; [|apply SAME; reflexivity].
      split; [|right; repeat split]. split; [reflexivity|]. split; [reflexivity|]. cbn [upd_st upd_tm tcp_send_empty upd_q t_q]. apply Forall_app. split; [exact HK|constructor; [split; reflexivity|constructor]].
    + apply some_inj in E. subst t'. apply SAME; reflexivity.
  - assert (SC : forall l i first cov x fst', rto_scan (t_una t) l i first = (cov, x, fst') ->
       (forall j, cov = Some j -> exists s, nth_error l (j - i) = Some s /\ (i <= j)%nat /\ s_sent s = true /\ s_pay s <> []) /\
       (forall j z, fst' = Some (j, z) -> first = Some (j, z) \/ exists s, nth_error l (j - i) = Some s /\ (i <= j)%nat /\ s_sent s = true /\ s_pay s <> [])).
    { clear. induction l as [|s l IH]; intros i first cov x fst' E; cbn [rto_scan] in E.
      - assert (cov = None /\ fst' = first) as [-> ->] by (split; congruence). split; [discriminate|auto].
      - set (cover := negb (slen s =? 0) && tcp_seq_leq (s_seq s) (t_una t) && tcp_seq_lt (t_una t) (tcp_seq_inc (s_seq s) (slen s))) in *.
        destruct (s_sent s) eqn:ES.
        + set (first' := if negb (slen s =? 0) && _ then _ else _) in *.
          assert (F1 : forall j z, first' = Some (j, z) -> first = Some (j, z) \/ exists s0, nth_error (s :: l) (j - i) = Some s0 /\ (i <= j)%nat /\ s_sent s0 = true /\ s_pay s0 <> []).
          { unfold first'. intros j z. destruct (negb (slen s =? 0) && match first with Some (_, f) => tcp_seq_lt (s_seq s) f | None => true end) eqn:EB; [|auto]. intros X. right. assert (i = j) by congruence. subst j. exists s. rewrite Nat.sub_diag. split; [reflexivity|]. split; [lia|]. split; [exact ES|].
            intros N. apply andb_true_iff in EB. destruct EB as [EB _]. apply slen_zero in N. rewrite N in EB. discriminate. }
          destruct cover eqn:ECV.
          * assert (cov = Some i /\ fst' = first') as [-> ->] by (split; congruence). split; [|exact F1]. intros j X. assert (j = i) by congruence. subst j. exists s. rewrite Nat.sub_diag. split; [reflexivity|]. split; [lia|]. split; [exact ES|].
            intros N. unfold cover in ECV. apply slen_zero in N. rewrite N in ECV. discriminate.
          * destruct (IH _ _ _ _ _ E) as (A & B). split.
            -- intros j X. destruct (A j X) as (s0 & X1 & X2 & X3). exists s0. replace (j - i)%nat with (S (j - S i)) by lia. split; [exact X1|]. split; [lia|exact X3].
            -- intros j z X. destruct (B j z X) as [Y|(s0 & X1 & X2 & X3)]; [apply F1; exact Y|]. right. exists s0. replace (j - i)%nat with (S (j - S i)) by lia. split; [exact X1|]. split; [lia|exact X3].
        + destruct cover.
          * assert (cov = None /\ fst' = first) as [-> ->] by (split; congruence). split; [discriminate|auto].
          * destruct (IH _ _ _ _ _ E) as (A & B). split.
            -- intros j X. destruct (A j X) as (s0 & X1 & X2 & X3). exists s0. replace (j - i)%nat with (S (j - S i)) by lia. split; [exact X1|]. split; [lia|exact X3].
            -- intros j z X. destruct (B j z X) as [Y|(s0 & X1 & X2 & X3)]; [auto|]. right. exists s0. replace (j - i)%nat with (S (j - S i)) by lia. split; [exact X1|]. split; [lia|exact X3]. }
    assert (MK : forall i s, nth_error (t_q t) i = Some s -> s_sent s = true -> s_pay s <> [] -> Forall2 fl (t_q t) (upd_nth i mark_seg (t_q t))).
    { intros i s N SS PP. unfold upd_nth. rewrite N. clear - N SS PP. revert i N. induction (t_q t) as [|x q IH]; intros [|i] N; cbn in N; try discriminate.
      - assert (x = s) by congruence. subst. cbn. constructor; [right; auto|apply fl_refl].
      - cbn. constructor; [left; reflexivity|apply IH; exact N]. }
    assert (ST : t_st t = CEst \/ t_st t = CFinWait1 \/ (t_st t = CCloseWait \/ t_st t = CLastAck)) by (destruct (t_st t); auto).
    assert (E' : t_st t = CCloseWait \/ t_st t = CLastAck -> t' = t1) by (intros [X|X]; rewrite X in E; congruence).
    destruct (rto_scan (t_una t) (t_q t) 0 None) as [[cov x] first] eqn:ES. change (rto_scan (t_una t1) (t_q t1) 0 None) with (rto_scan (t_una t) (t_q t) 0 None) in E. rewrite ES in E. destruct (SC _ _ _ _ _ _ ES) as (S1 & S2).
    destruct ST as [ST|[ST|ST]]; [| |rewrite (E' ST); apply SAME; reflexivity]; rewrite ST in E; clear E'.
    all: destruct (match cov with Some i => Some i | None => match first with Some (i, _) => Some i | None => None end end) as [i|] eqn:ET; [|apply some_inj in E; subst t'; apply SAME; reflexivity];
      (destruct (RTO_MAX_BACKOFF <=? _); [discriminate|]); apply some_inj in E; subst t';
      (assert (TG : exists s, nth_error (t_q t) i = Some s /\ s_sent s = true /\ s_pay s <> []);
       [destruct cov as [j|]; [assert (j = i) by congruence; subst; destruct (S1 i eq_refl) as (s & A & _ & B); exists s; rewrite Nat.sub_0_r in A; tauto|
         destruct first as [[j z]|]; [|discriminate]; assert (j = i) by congruence; subst; destruct (S2 i z eq_refl) as [X|(s & A & _ & B)]; [discriminate|]; exists s; rewrite Nat.sub_0_r in A; tauto]|]);
      destruct TG as (s & A & B & C); pose proof (MK i s A B C) as M;
      (split; [split; [reflexivity|]; split; [reflexivity|]; cbn [upd_tm upd_fr upd_cw upd_psack upd_infl upd_q t_q t1]; rewrite Forall_forall in *; intros y Iy;
         destruct (Forall2_in_r fl _ _ y M Iy) as (y0 & Iy0 & Fy); eapply fl_ok; [exact Fy|apply HK; exact Iy0]|left; eexists; split; [exact M|reflexivity]]).
Qed.
