(** C71: packets waiting for a session. *)
From Verif Require Import Base ByteOrder Arp WgAllowedIps WgCounter WgDevice WgDeviceInv WgDeviceRun WgDeviceKeys WgToy WgDeviceProps.

(** ** Reading a trace *)
(** The non-empty plaintexts encrypted to peer [i] (the empty ones are keepalives). *)
Definition is_nil (l : list Z) : bool := match l with [] => true | _ => false end.
Definition sent (i : Z) (tr : list ev) : list (list Z) :=
  flat_map (fun e => match e with EEnc j _ _ pt _ => if (j =? i) && negb (is_nil pt) then [pt] else [] | _ => [] end) tr.
(** The packets the stack handed to wolfguard_output for peer [i], cut to the
    1536 bytes of a tunnel buffer and zero padded to a multiple of 16. *)
Definition offered (i : Z) (tr : list ev) : list (list Z) :=
  flat_map (fun e => match e with EOut j pkt => if j =? i then [pad (firstn 1536 pkt)] else [] | _ => [] end) tr.
(** The packets of a peer that wait, oldest first. *)
Definition waiting (p : peer) : list (list Z) := firstn (Z.to_nat (p_cnt p)) (p_arr p).
Notation cnt l x := (count_occ keq l x).

Lemma sent_app i a b : sent i (a ++ b) = sent i a ++ sent i b.
Proof. apply flat_map_app. Qed.
Lemma offered_app i a b : offered i (a ++ b) = offered i a ++ offered i b.
Proof. apply flat_map_app. Qed.

(** ** The queue of one peer *)
Record qok (p : peer) : Prop := {
  qk_arr : length (p_arr p) = 16%nat; qk_cnt : 0 <= p_cnt p <= 16; qk_len : Forall (fun q => zlen q <= 1536) (p_arr p)
}.
Lemma Forall_lset {A} (P : A -> Prop) l i v : Forall P l -> P v -> Forall P (lset l i v).
Proof.
  intros F V. unfold lset. rewrite <- (firstn_skipn i l) in F. apply Forall_app in F. destruct F as (F1 & F2). apply Forall_app. split; [exact F1|].
  destruct (skipn i l) as [|y t]; [constructor|]. inversion F2; subst. constructor; assumption.
Qed.
Lemma firstn_lset {A} (l : list A) i v : (i < length l)%nat -> firstn (S i) (lset l i v) = firstn i l ++ [v].
Proof.
  intros H. unfold lset. assert (L : length (firstn i l) = i) by (rewrite firstn_length; lia).
  destruct (skipn i l) as [|y t] eqn:E; [apply (f_equal (@length A)) in E; rewrite skipn_length in E; cbn in E; lia|].
  rewrite firstn_app, L. replace (S i - i)%nat with 1%nat by lia. rewrite firstn_firstn. replace (Nat.min (S i) i) with i by lia. reflexivity.
Qed.
Lemma firstn_lset_le {A} (l : list A) i v n : (n <= i)%nat -> firstn n (lset l i v) = firstn n l.
Proof.
  intros H. unfold lset. destruct (Nat.le_gt_cases (length l) i) as [G|G].
  - rewrite (skipn_all2 (n := i) l G), (firstn_all2 (n := i) l G). rewrite app_nil_r. reflexivity.
  - rewrite firstn_app, firstn_length, firstn_firstn. replace (Nat.min n i) with n by lia. replace (n - Nat.min i (length l))%nat with O by lia. cbn. apply app_nil_r.
Qed.
Lemma skipn_lset_gt {A} (l : list A) i v n : (i < n)%nat -> skipn n (lset l i v) = skipn n l.
Proof.
  intros H. unfold lset. destruct (Nat.le_gt_cases (length l) i) as [G|G].
  - rewrite (skipn_all2 (n := i) l G), (firstn_all2 (n := i) l G). rewrite app_nil_r. reflexivity.
  - rewrite <- (firstn_skipn i l) at 3. destruct (skipn i l) as [|y t] eqn:E; [reflexivity|].
    rewrite !skipn_app, firstn_length. replace (n - Nat.min i (length l))%nat with (S (n - i - 1)) by lia. cbn [skipn]. reflexivity.
Qed.
Lemma waiting_fields p p' : p_arr p' = p_arr p -> p_cnt p' = p_cnt p -> waiting p' = waiting p.
Proof. intros A B. unfold waiting. rewrite A, B. reflexivity. Qed.
Lemma qok_fields p p' : p_arr p' = p_arr p -> p_cnt p' = p_cnt p -> qok p -> qok p'.
Proof. intros A B []. constructor; rewrite ?A, ?B; assumption. Qed.

Section Staging.
Context (C : crypto).

(** An action that leaves the queue alone and sends no packet. *)
Definition still (i : Z) (r : gdev * peer * list ev) (p : peer) : Prop :=
  p_arr (snd (fst r)) = p_arr p /\ p_cnt (snd (fst r)) = p_cnt p /\ sent i (snd r) = [].

Lemma initiate_still i g p : still i (initiate C i g p) p.
Proof. unfold initiate, still. destruct (create_initiation C g (p_hs p)) as [[g1 h1] [m|]]; [|repeat split]. destruct (add_macs C _ _ _). repeat split. Qed.
Lemma keepalive_still i g p : still i (keepalive C i g p) p.
Proof.
  unfold keepalive, still. destruct (s_cur _); [|repeat split]. cbn zeta. do 3 (destruct (_ : bool); [repeat split|]).
  destruct (c_enc _ _ _ _ _); [|repeat split]. repeat split. cbn. rewrite andb_false_r. reflexivity.
Qed.
Lemma first_still i g p : still i (first_keepalive C i g p) p.
Proof. unfold first_keepalive. destruct (s_cur _); [|repeat split]. destruct (_ =? _); [apply keepalive_still|repeat split]. Qed.
Lemma still_seq i a b g p : still i (a g p) p -> (forall g p, still i (b g p) p) -> still i (seq a b g p) p.
Proof.
  unfold seq, still. intros (A1 & A2 & A3) B. destruct (a g p) as [[g1 p1] e1]. cbn [fst snd] in *. specialize (B g1 p1). destruct B as (B1 & B2 & B3).
  destruct (b g1 p1) as [[g2 p2] e2]. cbn [fst snd] in *. rewrite sent_app, A3, B3. repeat split; congruence.
Qed.
Lemma send_init_still i g p : still i (send_initiation C i g p) p.
Proof. apply still_seq; [repeat split|]. intros. apply initiate_still. Qed.
Lemma jitter_still i g p : still i (jitter g p) p.
Proof. unfold jitter. destruct (g_rng g); repeat split. Qed.

Lemma tick_still i g p : still i (tick C i g p) p.
Proof.
  unfold tick. destruct (negb _); [repeat split|].
  apply still_seq; [|intros g1 p1; apply still_seq; [|intros g2 p2; apply still_seq; [|intros g3 p3; apply still_seq; [|intros g4 p4; apply still_seq; [|intros g5 p5]]]]].
  - unfold tm_retransmit. destruct (_ || _); [repeat split|]. destruct (_ <=? _); [repeat split|]. destruct (_ <=? _); [apply send_init_still|repeat split].
  - unfold tm_passive. destruct (s_cur _); [|repeat split]. do 4 (destruct (_ : bool); [repeat split|]).
    pose proof (keepalive_still i g1 p1) as Q. destruct (keepalive C i g1 p1) as [[? ?] ?]. exact Q.
  - unfold tm_rekey. destruct (s_cur _); [|repeat split]. cbn zeta. do 2 (destruct (_ : bool); [repeat split|]). apply still_seq; [apply jitter_still|intros; apply send_init_still].
  - unfold tm_stale. destruct (s_cur _); [|repeat split]. do 3 (destruct (_ : bool); [repeat split|]). apply still_seq; [apply jitter_still|intros; apply send_init_still].
  - unfold tm_zero. destruct (s_cur _); [|repeat split]. destruct (_ <? _); repeat split.
  - unfold tm_persistent. destruct (_ =? 0); [repeat split|]. destruct (s_cur _); [|repeat split]. do 2 (destruct (_ : bool); [repeat split|]).
    pose proof (keepalive_still i g5 p5) as Q. destruct (keepalive C i g5 p5) as [[? ?] ?]. exact Q.
Qed.

Lemma pad_len_ge n : 0 <= n -> n <= pad_len n.
Proof. intros. unfold pad_len. pose proof (Z.mod_pos_bound n 16 ltac:(lia)). destruct (_ =? 0); lia. Qed.

(** What wg_packet_send does with a packet: drop it, send it, or append it to the
    queue. *)
Lemma packet_send_cases i pkt g p : let '(_, p', e) := packet_send C i pkt g p in
  (p_arr p' = p_arr p /\ p_cnt p' = p_cnt p /\ (sent i e = [] \/ sent i e = [pad pkt] /\ zlen pkt <= 1536)) \/
  (p_cnt p < 16 /\ p_arr p' = lset (p_arr p) (Z.to_nat (p_cnt p)) (firstn 1536 pkt) /\ p_cnt p' = p_cnt p + 1 /\ sent i e = []).
Proof.
  assert (ST : forall q, p_arr q = p_arr p -> p_cnt q = p_cnt p -> (p_arr (stage q pkt) = p_arr p /\ p_cnt (stage q pkt) = p_cnt p) \/
     (p_cnt p < 16 /\ p_arr (stage q pkt) = lset (p_arr p) (Z.to_nat (p_cnt p)) (firstn 1536 pkt) /\ p_cnt (stage q pkt) = p_cnt p + 1)).
  { intros q EA EC. unfold stage. rewrite EC. destruct (Z.leb_spec STAGED (p_cnt p)); [left; split; assumption|]. right. unfold STAGED in *. split; [lia|].
    cbn [up_stg p_arr p_cnt]. split; [|reflexivity]. rewrite EA. f_equal. destruct (Z.ltb_spec LINK_MTU (zlen pkt)) as [G|G]; [reflexivity|].
    unfold LINK_MTU, zlen in G. rewrite firstn_all2; [reflexivity|]. apply Nat2Z.inj_le. change (Z.of_nat 1536) with 1536. lia. }
  unfold packet_send.
  assert (NS : let '(_, p', e) := (let p1 := stage p pkt in if hs_eqb (h_state (p_hs p1)) Zeroed then initiate C i g p1 else (g, p1, [])) in
    (p_arr p' = p_arr p /\ p_cnt p' = p_cnt p /\ (sent i e = [] \/ sent i e = [pad pkt] /\ zlen pkt <= 1536)) \/
    (p_cnt p < 16 /\ p_arr p' = lset (p_arr p) (Z.to_nat (p_cnt p)) (firstn 1536 pkt) /\ p_cnt p' = p_cnt p + 1 /\ sent i e = [])).
  { cbn zeta. specialize (ST p eq_refl eq_refl). destruct (hs_eqb _ _).
    - pose proof (initiate_still i g (stage p pkt)) as (A1 & A2 & A3). destruct (initiate C i g (stage p pkt)) as [[g1 p1] e1]. cbn [fst snd] in *. rewrite A1, A2, A3.
      destruct ST as [(B1 & B2)|(B0 & B1 & B2)]; [left; auto|right; auto].
    - destruct ST as [(B1 & B2)|(B0 & B1 & B2)]; [left; auto|right; auto]. }
  destruct (s_cur (p_kps p)) as [s|]; [|exact NS]. set (k := slot (p_kps p) s). cbn zeta. destruct (negb (k_svalid k)); [exact NS|]. clear NS.
  destruct (_ || _).
  { destruct (ST (up_kps p (up_slot (p_kps p) s (kp_inv k))) eq_refl eq_refl) as [(B1 & B2)|(B0 & B1 & B2)]; [left; auto|right; auto]. }
  clear ST. destruct (Z.ltb_spec LINK_MTU (pad_len (zlen pkt))) as [G|G]; [left; auto|].
  destruct (c_enc _ _ _ _ _) as [ct|]; [|left; auto].
  assert (L : zlen pkt <= 1536). { pose proof (pad_len_ge (zlen pkt) ltac:(unfold zlen; lia)). unfold LINK_MTU in G. lia. }
  assert (SE : forall rest, sent i (EEnc i (k_skey k) (k_sctr k) (pad pkt) (g_now g) :: EUdp (p_ip p) (p_port p) (data_header (k_ridx k) (k_sctr k) ++ ct) :: rest) = sent i rest \/
               sent i (EEnc i (k_skey k) (k_sctr k) (pad pkt) (g_now g) :: EUdp (p_ip p) (p_port p) (data_header (k_ridx k) (k_sctr k) ++ ct) :: rest) = [pad pkt] ++ sent i rest).
  { intros rest. cbn. rewrite Z.eqb_refl. destruct (is_nil (pad pkt)); cbn; auto. }
  set (p2 := up_tsent _ _ _). destruct (_ && _).
  - pose proof (initiate_still i g p2) as (A1 & A2 & A3). destruct (initiate C i g p2) as [[g3 p3] e3]. cbn [fst snd] in *. left. rewrite A1, A2. split; [reflexivity|]. split; [reflexivity|].
    cbn [app]. destruct (SE e3) as [E|E]; rewrite E, A3; auto.
  - left. split; [reflexivity|]. split; [reflexivity|]. destruct (SE []) as [E|E]; rewrite E; auto.
Qed.

Lemma trunc_id (q : list Z) : zlen q <= 1536 -> firstn 1536 q = q.
Proof. intros H. apply firstn_all2. apply Nat2Z.inj_le. change (Z.of_nat 1536) with 1536. unfold zlen in H. exact H. Qed.
Lemma trunc_len (q : list Z) : zlen (firstn 1536 q) <= 1536.
Proof.
  unfold zlen. rewrite firstn_length. rewrite Nat2Z.inj_min. change (Z.of_nat 1536) with 1536. lia.
Qed.

Lemma cnt_app l1 l2 x : cnt (l1 ++ l2) x = (cnt l1 x + cnt l2 x)%nat.
Proof. apply count_occ_app. Qed.

(** One packet. *)
Lemma packet_send_count i pkt g p x : qok p -> let '(_, p', e) := packet_send C i pkt g p in
  qok p' /\ (cnt (sent i e) x + cnt (map pad (waiting p')) x <= cnt (map pad (waiting p)) x + cnt [pad (firstn 1536 pkt)] x)%nat.
Proof.
  intros Q. pose proof (packet_send_cases i pkt g p) as H. destruct (packet_send C i pkt g p) as [[g' p'] e].
  destruct H as [(A1 & A2 & A3)|(A0 & A1 & A2 & A3)].
  - split; [exact (qok_fields _ _ A1 A2 Q)|]. rewrite (waiting_fields _ _ A1 A2). destruct A3 as [->|(-> & L)]; [change (cnt [] x) with O; lia|]. rewrite trunc_id by exact L. lia.
  - destruct Q as [Q1 Q2 Q3]. split.
    + constructor; rewrite ?A1, ?A2; [rewrite lset_length; exact Q1|lia|apply Forall_lset; [exact Q3|apply trunc_len]].
    + rewrite A3. unfold waiting. rewrite A1, A2. replace (Z.to_nat (p_cnt p + 1)) with (S (Z.to_nat (p_cnt p))) by lia.
      rewrite firstn_lset by lia. rewrite map_app, cnt_app. change (cnt [] x) with O. cbn [map]. lia.
Qed.

Lemma staged_loop_count i x n : forall j g p, qok p -> p_cnt p <= Z.of_nat j -> (j + n <= 16)%nat ->
  let '(_, p', e) := staged_loop C i n j g p in
  qok p' /\ (cnt (sent i e) x + cnt (map pad (waiting p')) x <= cnt (map pad (waiting p)) x + cnt (map pad (firstn n (skipn j (p_arr p)))) x)%nat.
Proof.
  induction n as [|n IH]; intros j g p Q HC HL; cbn [staged_loop].
  - split; [exact Q|]. change (cnt (sent i []) x) with O. cbn [firstn map]. lia.
  - destruct Q as [Q1 Q2 Q3]. unfold seq. set (pkt := nth j (p_arr p) []). set (p0 := up_stg p (lset (p_arr p) j []) (p_cnt p)).
    assert (Q0 : qok p0). { constructor; cbn [p0 up_stg p_arr p_cnt]; [rewrite lset_length; exact Q1|exact Q2|apply Forall_lset; [exact Q3|cbn; lia]]. }
    assert (W0 : waiting p0 = waiting p). { unfold waiting. cbn [p0 up_stg p_arr p_cnt]. apply firstn_lset_le. lia. }
    pose proof (packet_send_count i pkt g p0 x Q0) as H1. pose proof (packet_send_cases i pkt g p0) as H2.
    destruct (packet_send C i pkt g p0) as [[g1 p1] e1]. destruct H1 as (Q1' & H1).
    assert (SK : skipn (S j) (p_arr p1) = skipn (S j) (p_arr p) /\ p_cnt p1 <= Z.of_nat (S j)).
    { destruct H2 as [(A1 & A2 & _)|(A0 & A1 & A2 & _)]; rewrite A1, A2; cbn [p0 up_stg p_arr p_cnt] in *.
      - split; [apply skipn_lset_gt; lia|lia].
      - split; [|lia]. rewrite skipn_lset_gt by lia. apply skipn_lset_gt. lia. }
    destruct SK as (SK1 & SK2). specialize (IH (S j) g1 p1 Q1' SK2 ltac:(lia)). destruct (staged_loop C i n (S j) g1 p1) as [[g2 p2] e2].
    destruct IH as (Q2' & IH). split; [exact Q2'|]. rewrite sent_app, cnt_app. rewrite SK1 in IH. rewrite W0 in H1.
    assert (PK : pkt = firstn 1536 pkt). { symmetry. apply trunc_id. unfold pkt. rewrite Forall_forall in Q3. apply Q3. apply nth_In. lia. }
    assert (SP : firstn (S n) (skipn j (p_arr p)) = pkt :: firstn n (skipn (S j) (p_arr p))).
    { destruct (skipn j (p_arr p)) as [|y t] eqn:E; [apply (f_equal (@length (list Z))) in E; rewrite skipn_length in E; cbn in E; lia|].
      cbn [firstn]. assert (E1 : nth 0 (skipn j (p_arr p)) [] = y) by (rewrite E; reflexivity).
      assert (NS : forall (l : list (list Z)) a b, nth b (skipn a l) [] = nth (a + b) l []).
      { clear. induction l as [|z l IH]; intros a b; [rewrite skipn_nil; destruct a, b; reflexivity|]. destruct a; [reflexivity|]. cbn. apply IH. }
      rewrite NS, Nat.add_0_r in E1. fold pkt in E1. rewrite E1. f_equal. f_equal.
      change (S j) with (1 + j)%nat. rewrite <- skipn_skipn. rewrite E. reflexivity. }
    rewrite SP. cbn [map]. change (pad pkt :: ?l) with ([pad pkt] ++ l). rewrite cnt_app. rewrite PK. change (cnt [pad (firstn 1536 pkt)] x) with (cnt [pad (firstn 1536 pkt)] x) in *. lia.
Qed.

(** The count does not grow, whatever happens to the peer. *)
Definition fair (i : Z) (a : act) (extra : list (list Z)) : Prop := forall g p x, qok p -> let '(_, p', e) := a g p in
  qok p' /\ (cnt (sent i e) x + cnt (map pad (waiting p')) x <= cnt (map pad (waiting p)) x + cnt extra x)%nat.
Lemma fair_still i a : (forall g p, still i (a g p) p) -> fair i a [].
Proof.
  intros S g p x Q. specialize (S g p). destruct (a g p) as [[g' p'] e]. destruct S as (A1 & A2 & A3). cbn [fst snd] in *. split; [exact (qok_fields _ _ A1 A2 Q)|].
  rewrite (waiting_fields _ _ A1 A2), A3. change (cnt [] x) with O. lia.
Qed.
Lemma fair_seq i a b : fair i a [] -> fair i b [] -> fair i (seq a b) [].
Proof.
  intros A B g p x Q. unfold seq. specialize (A g p x Q). destruct (a g p) as [[g1 p1] e1]. destruct A as (A1 & A2). specialize (B g1 p1 x A1).
  destruct (b g1 p1) as [[g2 p2] e2]. destruct B as (B1 & B2). split; [exact B1|]. rewrite sent_app, cnt_app. change (cnt [] x) with O in *. lia.
Qed.
Lemma send_staged_fair i : fair i (send_staged C i) [].
Proof.
  intros g p x Q. unfold send_staged. pose proof Q as [Q1 Q2 Q3].
  assert (Q0 : qok (up_stg p (p_arr p) 0)) by (constructor; cbn [up_stg p_arr p_cnt]; [assumption|lia|assumption]).
  pose proof (staged_loop_count i x (Z.to_nat (p_cnt p)) 0 g (up_stg p (p_arr p) 0) Q0) as H. cbn [up_stg p_arr p_cnt] in H. specialize (H ltac:(lia) ltac:(lia)).
  destruct (staged_loop C i _ 0 g _) as [[g' p'] e]. destruct H as (A & B). split; [exact A|]. cbn [skipn] in B.
  change (waiting (up_stg p (p_arr p) 0)) with (@nil (list Z)) in B. cbn [map] in B. change (cnt [] x) with O in *. unfold waiting at 2. lia.
Qed.
Lemma finish_fair i a : fair i a [] -> fair i (finish C i a) [].
Proof.
  intros FA g p x Q. unfold finish. destruct (begin_session C i g p) as [[p1 e1]|] eqn:E.
  - assert (F : p_arr p1 = p_arr p /\ p_cnt p1 = p_cnt p /\ sent i e1 = []).
    { unfold begin_session in E. destruct (_ && _); [discriminate|]. destruct (kdf2 C _ []) as [t1 t2]. injection E as <- <-. repeat split. }
    destruct F as (F1 & F2 & F3). set (p2 := up_tdone p1 (g_now g)). assert (Q2 : qok p2) by (apply (qok_fields p); assumption).
    pose proof (fair_seq _ _ _ (send_staged_fair i) FA g p2 x Q2) as H. destruct (seq _ _ g p2) as [[g3 p3] e3]. destruct H as (H1 & H2). split; [exact H1|].
    rewrite sent_app, F3. cbn [app]. rewrite (waiting_fields p p2) in H2 by assumption. exact H2.
  - split; [exact Q|]. change (cnt (sent i []) x) with O. lia.
Qed.
Lemma answer_fair i ip port : fair i (answer C i ip port) [].
Proof.
  intros g p x Q. unfold answer. destruct (create_response C g _) as [[g1 h1] [m|]].
  - destruct (add_macs C _ _ _) as [c' full]. set (p1 := up_cookie _ _). assert (FS : fair i skip []) by (apply fair_still; intros; repeat split).
    assert (Q1 : qok p1) by (apply (qok_fields p); [reflexivity|reflexivity|exact Q]). pose proof (finish_fair i skip FS g1 p1 x Q1) as H.
    destruct (finish C i skip g1 p1) as [[g2 p2] e2]. destruct H as (H1 & H2). split; [exact H1|]. exact H2.
  - split; [apply (qok_fields p); [reflexivity|reflexivity|exact Q]|]. change (waiting (up_hs (up_ep p ip port) h1)) with (waiting p). change (cnt (sent i []) x) with O. lia.
Qed.

(** ** The device *)
Lemma kstep_sent i now V e V' j : kstep i now V e V' -> j <> i -> sent j e = [].
Proof. intros H N. destruct H; try reflexivity; cbn; [destruct (Z.eqb_spec i j); [congruence|reflexivity]|]. destruct e; try destruct H; reflexivity. Qed.
Lemma ksteps_sent i now V e V' j : ksteps i now V e V' -> j <> i -> sent j e = [].
Proof. intros H N. induction H as [|V V1 V2 e1 e2 K1 K2 IH]; [reflexivity|]. rewrite sent_app, IH, (kstep_sent _ _ _ _ _ _ K1 N). reflexivity. Qed.

Definition SI (d : dev) (tr : list ev) : Prop := Forall qok (snd d) /\
  forall i x, (i < 8)%nat -> (cnt (sent (Z.of_nat i) tr) x + cnt (map pad (waiting (nth i (snd d) peer_zero))) x <= cnt (offered (Z.of_nat i) tr) x)%nat.

Lemma qok_zero : qok peer_zero.
Proof. constructor; [reflexivity|cbn; lia|repeat constructor; cbn; lia]. Qed.
Lemma qok_nth (d : dev) i : Forall qok (snd d) -> qok (nth i (snd d) peer_zero).
Proof.
  intros F. destruct (Nat.lt_ge_cases i (length (snd d))) as [L|L]; [eapply Forall_forall; [exact F|apply nth_In, L]|]. rewrite nth_overflow by exact L. apply qok_zero.
Qed.

Lemma SI_on_peer d i a tr extra (o : list ev) : dev_wf d -> (i < 8)%nat -> good (Z.of_nat i) a -> fair (Z.of_nat i) a extra ->
  (forall j, offered (Z.of_nat j) o = if Nat.eqb j i then extra else []) -> (forall j, sent j o = []) ->
  (forall j, offered j (snd (on_peer d i a)) = []) ->
  SI d tr -> SI (fst (on_peer d i a)) (tr ++ o ++ snd (on_peer d i a)).
Proof.
  intros W Hi G FA HO HS HN (F & H). unfold on_peer in *. specialize (FA (fst d) (nth i (snd d) peer_zero)).
  specialize (G (fst d) _ (nth_wf d i W)). pose proof W as (L & _).
  destruct (a (fst d) (nth i (snd d) peer_zero)) as [[g p] e]. destruct G as (_ & _ & _ & _ & G). cbn [fst snd] in *.
  split; cbn [fst snd]; [apply Forall_lset; [exact F|]; apply (FA [] (qok_nth d i F))|].
  intros j x Hj. rewrite !sent_app, !offered_app, !cnt_app, HS, HN, HO. change (cnt [] x) with O. specialize (H j x Hj).
  destruct (Nat.eqb_spec j i) as [->|NJ].
  - rewrite nth_lset_eq by lia. destruct (FA x (qok_nth d i F)) as (_ & B). lia.
  - rewrite nth_lset_ne by exact NJ. rewrite (ksteps_sent _ _ _ _ _ (Z.of_nat j) G) by lia. change (cnt [] x) with O. lia.
Qed.

(** No action on a peer is itself a call from the stack. *)
Definition noout (e : list ev) : Prop := forall j, offered j e = [].
Lemma noout_app a b : noout a -> noout b -> noout (a ++ b).
Proof. intros A B j. rewrite offered_app, A, B. reflexivity. Qed.
Definition nact (a : act) : Prop := forall g p, noout (snd (a g p)).
Lemma n_seq a b : nact a -> nact b -> nact (seq a b).
Proof.
  intros A B g p. unfold seq. specialize (A g p). destruct (a g p) as [[g1 p1] e1]. specialize (B g1 p1). destruct (b g1 p1) as [[g2 p2] e2]. cbn [snd] in *. apply noout_app; assumption.
Qed.
Lemma noout_nil : noout []. Proof. intros j. reflexivity. Qed.
Lemma n_initiate i : nact (initiate C i).
Proof. intros g p. unfold initiate. destruct (create_initiation C g (p_hs p)) as [[g1 h1] [m|]]; [|intros j; reflexivity]. destruct (add_macs C _ _ _). intros j; reflexivity. Qed.
Lemma n_reset : nact (reset_handshake C). Proof. intros g p. apply noout_nil. Qed.
Lemma n_send_init i : nact (send_initiation C i). Proof. apply n_seq; [apply n_reset|apply n_initiate]. Qed.
Lemma n_packet i pkt : nact (packet_send C i pkt).
Proof.
  intros g p. unfold packet_send.
  assert (NS : noout (snd (let p1 := stage p pkt in if hs_eqb (h_state (p_hs p1)) Zeroed then initiate C i g p1 else (g, p1, [])))).
  { cbn zeta. destruct (hs_eqb _ _); [apply n_initiate|apply noout_nil]. }
  destruct (s_cur (p_kps p)) as [s|]; [|exact NS]. destruct (negb _); [exact NS|]. cbn zeta.
  destruct (_ || _); [apply noout_nil|]. destruct (_ <? _); [apply noout_nil|]. destruct (c_enc _ _ _ _ _) as [ct|]; [|apply noout_nil].
  destruct (_ && _); [|intros j; reflexivity]. set (p2 := up_tsent _ _ _). pose proof (n_initiate i g p2) as Q. destruct (initiate C i g p2) as [[g3 p3] e3].
  cbn [snd] in *. apply noout_app; [intros j; reflexivity|exact Q].
Qed.
Lemma n_loop i n : forall j, nact (staged_loop C i n j).
Proof. induction n as [|n IH]; intros j g p; cbn [staged_loop]; [apply noout_nil|]. apply n_seq; [apply n_packet|apply IH]. Qed.
Lemma n_keep i : nact (keepalive C i).
Proof.
  intros g p. unfold keepalive. destruct (s_cur _); [|apply noout_nil]. cbn zeta. do 3 (destruct (_ : bool); [apply noout_nil|]).
  destruct (c_enc _ _ _ _ _); intros j; reflexivity.
Qed.
Lemma n_first i : nact (first_keepalive C i).
Proof. intros g p. unfold first_keepalive. destruct (s_cur _); [|apply noout_nil]. destruct (_ =? _); [apply n_keep|apply noout_nil]. Qed.
Lemma n_finish i x : nact x -> nact (finish C i x).
Proof.
  intros Q g p. unfold finish. destruct (begin_session C i g p) as [[p1 e1]|] eqn:E; [|apply noout_nil].
  unfold begin_session in E. destruct (_ && _); [discriminate|]. destruct (kdf2 C _ []) as [t1 t2]. injection E as <- <-.
  set (p1 := up_tdone _ _). assert (NS : nact (send_staged C i)) by (intros ? ?; apply n_loop). pose proof (n_seq _ _ NS Q g p1) as Q1.
  destruct (seq _ _ g p1) as [[g2 p2] e2]. cbn [snd] in *. apply noout_app; [intros j; reflexivity|exact Q1].
Qed.
Lemma n_answer i ip port : nact (answer C i ip port).
Proof.
  intros g p. unfold answer. destruct (create_response C g _) as [[g1 h1] [m|]]; [|intros j; reflexivity]. destruct (add_macs C _ _ _) as [c' full].
  set (p1 := up_cookie _ _). assert (QS : nact skip) by (intros ? ?; apply noout_nil). pose proof (n_finish i skip QS g1 p1) as Q.
  destruct (finish C i skip g1 p1) as [[g2 p2] e2]. cbn [snd] in *. exact Q.
Qed.
Lemma n_jitter : nact jitter.
Proof. intros g p. unfold jitter. destruct (g_rng g); apply noout_nil. Qed.
Lemma n_tick i : nact (tick C i).
Proof.
  intros g p. unfold tick. destruct (negb _); [apply noout_nil|].
  apply n_seq; [|apply n_seq; [|apply n_seq; [|apply n_seq; [|apply n_seq]]]]; intros g0 p0.
  - unfold tm_retransmit. destruct (_ || _); [apply noout_nil|]. destruct (_ <=? _); [apply noout_nil|]. destruct (_ <=? _); [apply n_send_init|apply noout_nil].
  - unfold tm_passive. destruct (s_cur _); [|apply noout_nil]. do 4 (destruct (_ : bool); [apply noout_nil|]).
    pose proof (n_keep i g0 p0) as Q. destruct (keepalive C i g0 p0) as [[? ?] ?]. exact Q.
  - unfold tm_rekey. destruct (s_cur _); [|apply noout_nil]. cbn zeta. do 2 (destruct (_ : bool); [apply noout_nil|]). apply n_seq; [apply n_jitter|apply n_send_init].
  - unfold tm_stale. destruct (s_cur _); [|apply noout_nil]. do 3 (destruct (_ : bool); [apply noout_nil|]). apply n_seq; [apply n_jitter|apply n_send_init].
  - unfold tm_zero. destruct (s_cur _); [|apply noout_nil]. destruct (_ <? _); apply noout_nil.
  - unfold tm_persistent. destruct (_ =? 0); [apply noout_nil|]. destruct (s_cur _); [|apply noout_nil]. do 2 (destruct (_ : bool); [apply noout_nil|]).
    pose proof (n_keep i g0 p0) as Q. destruct (keepalive C i g0 p0) as [[? ?] ?]. exact Q.
Qed.
Lemma n_on_peer d i a : nact a -> noout (snd (on_peer d i a)).
Proof. intros Q. unfold on_peer. specialize (Q (fst d) (nth i (snd d) peer_zero)). destruct (a _ _) as [[g p] e]. exact Q. Qed.

Lemma SI_act d i a tr : dev_wf d -> (i < 8)%nat -> good (Z.of_nat i) a -> fair (Z.of_nat i) a [] -> nact a -> SI d tr ->
  SI (fst (on_peer d i a)) (tr ++ snd (on_peer d i a)).
Proof.
  intros W Hi G F N S. change (snd (on_peer d i a)) with ([] ++ snd (on_peer d i a)). apply SI_on_peer with (extra := []); try assumption.
  - intros j. destruct (Nat.eqb j i); reflexivity.
  - reflexivity.
  - apply n_on_peer, N.
Qed.

Lemma SI_tick n : forall d i tr, dev_wf d -> (i + n <= 8)%nat -> SI d tr -> SI (fst (tick_all C d n i)) (tr ++ snd (tick_all C d n i)).
Proof.
  induction n as [|n IH]; intros d i tr W L SS; cbn [tick_all]; [cbn [fst snd]; rewrite app_nil_r; exact SS|].
  pose proof (SI_act d i (tick C (Z.of_nat i)) tr W ltac:(lia) (tick_good C _) (fair_still _ _ (tick_still _)) (n_tick _) SS) as S1.
  destruct (on_peer_ok d i (tick C (Z.of_nat i)) W ltac:(lia) (tick_good C _)) as ((W1 & _) & _).
  destruct (on_peer d i _) as [d1 e1]. cbn [fst snd] in *. specialize (IH d1 (S i) _ W1 ltac:(lia) S1). destruct (tick_all C d1 n (S i)) as [d2 e2]. cbn [fst snd] in *.
  rewrite app_assoc. exact IH.
Qed.
Lemma SI_neutral d d' tr e : SI d tr -> length (snd d') = length (snd d) ->
  (forall i, p_arr (nth i (snd d') peer_zero) = p_arr (nth i (snd d) peer_zero) /\ p_cnt (nth i (snd d') peer_zero) = p_cnt (nth i (snd d) peer_zero)) ->
  (forall j, sent j e = []) -> (forall j, offered j e = []) -> SI d' (tr ++ e).
Proof.
  intros (F & H) L E ES EO. split.
  - apply Forall_forall. intros q I. apply (In_nth _ _ peer_zero) in I. destruct I as (n & Hn & <-). destruct (E n) as (A & B).
    apply (qok_fields _ _ A B). apply qok_nth, F.
  - intros i x Hi. destruct (E i) as (A & B). rewrite (waiting_fields _ _ A B), sent_app, offered_app, !cnt_app, ES, EO. specialize (H i x Hi). change (cnt [] x) with O. lia.
Qed.
Lemma lset_fields ps i p : p_arr p = p_arr (nth i ps peer_zero) -> p_cnt p = p_cnt (nth i ps peer_zero) ->
  forall j, p_arr (nth j (lset ps i p) peer_zero) = p_arr (nth j ps peer_zero) /\ p_cnt (nth j (lset ps i p) peer_zero) = p_cnt (nth j ps peer_zero).
Proof.
  intros A B j. destruct (Nat.eq_dec j i) as [->|N]; [|rewrite nth_lset_ne by exact N; split; reflexivity].
  destruct (Nat.lt_ge_cases i (length ps)) as [L|L]; [rewrite nth_lset_eq by exact L; split; assumption|].
  rewrite (nth_overflow (lset ps i p)) by (rewrite lset_length; exact L). rewrite (nth_overflow ps) by exact L. split; reflexivity.
Qed.
Lemma SI_reply d b off ip port tr : SI d tr -> SI (fst (send_reply C d b off ip port)) (tr ++ snd (send_reply C d b off ip port)).
Proof.
  intros S. unfold send_reply. destruct (create_reply C (fst d) b off ip port) as [g [m|]]; cbn [fst snd]; (eapply SI_neutral; [exact S|reflexivity|split; reflexivity|reflexivity|reflexivity]).
Qed.

Lemma SI_step d o r tr : dev_wf d -> op_ok (g_now (fst d)) o -> SI d tr -> SI (fst (step C d o r)) (tr ++ snd (step C d o r)).
Proof.
  intros W HO S. unfold step. set (d0 := (up_rng (fst d) r, snd d)). assert (W0 : dev_wf d0) by exact W. assert (S0 : SI d0 tr) by exact S. clearbody d0. clear W S.
  destruct W0 as (L & FW). pose proof (conj L FW : dev_wf d0) as W0. clear FW.
  destruct o as [priv|pub psk ip port ka|i ip cidr|pkt|now|b ip port].
  - unfold set_private_key. destruct (c_pub C priv); cbn [fst snd]; rewrite app_nil_r; [|exact S0]. destruct S0 as (F & H). split; cbn [snd].
    + apply Forall_forall. intros q I. apply in_map_iff in I. destruct I as (p & <- & I). rewrite Forall_forall in F. specialize (F p I). unfold rekey_peer. destruct (negb _); [exact F|].
      constructor; [reflexivity|cbn; lia|cbn; repeat constructor; cbn; lia].
    + intros i x Hi. rewrite (nth_indep _ peer_zero (rekey_peer C priv peer_zero)) by (rewrite map_length; lia). rewrite map_nth. specialize (H i x Hi).
      unfold rekey_peer. destruct (negb _); [exact H|]. change (waiting _) with (@nil (list Z)). cbn [map]. change (cnt [] x) with O. lia.
  - unfold add_peer. destruct (find_free (snd d0) 0) as [i|]; cbn [fst snd]; rewrite app_nil_r; [|exact S0]. destruct S0 as (F & H). split; cbn [snd].
    + apply Forall_lset; [exact F|]. constructor; [reflexivity|cbn; lia|cbn; repeat constructor; cbn; lia].
    + intros j x Hj. specialize (H j x Hj). destruct (Nat.eq_dec j i) as [->|N]; [|rewrite nth_lset_ne by exact N; exact H]. rewrite nth_lset_eq by lia.
      change (waiting (new_peer C (fst d0) pub psk ip port ka)) with (@nil (list Z)). cbn [map]. change (cnt [] x) with O. lia.
  - unfold add_allowed. destruct (_ || _); [cbn [fst snd]; rewrite app_nil_r; exact S0|]. destruct (negb _); cbn [fst snd]; rewrite app_nil_r; exact S0.
  - unfold output. destruct (wolfguard_output _ _ pkt) as [i|] eqn:EO; [|cbn [fst snd]; rewrite app_nil_r; exact S0].
    unfold wolfguard_output in EO. destruct (zlen pkt <? 20); [discriminate|]. destruct (negb _); [discriminate|]. cbn zeta in EO.
    destruct ((aips_lookup (g_aips (fst d0)) (load_le32 (skipn 16 pkt)) <? 0) || (8 <=? aips_lookup (g_aips (fst d0)) (load_le32 (skipn 16 pkt)))) eqn:EB; [discriminate|].
    destruct (negb _); [discriminate|]. apply orb_false_iff in EB. destruct EB as (EB1 & EB2). assert (EI : aips_lookup (g_aips (fst d0)) (load_le32 (skipn 16 pkt)) = i) by congruence.
    rewrite EI in EB1, EB2. assert (RI : 0 <= i < 8) by lia. clear EO EB1 EB2 EI.
    assert (G : good (Z.of_nat (Z.to_nat i)) (packet_send C i pkt)) by (rewrite Z2Nat.id by lia; apply packet_send_good).
    pose proof (SI_on_peer d0 (Z.to_nat i) (packet_send C i pkt) tr [pad (firstn 1536 pkt)] [EOut i pkt] W0 ltac:(lia) G) as X.
    assert (FA : fair (Z.of_nat (Z.to_nat i)) (packet_send C i pkt) [pad (firstn 1536 pkt)]).
    { rewrite Z2Nat.id by lia. intros g p x Q. apply packet_send_count, Q. }
    assert (HO1 : forall j, offered (Z.of_nat j) [EOut i pkt] = if Nat.eqb j (Z.to_nat i) then [pad (firstn 1536 pkt)] else []).
    { intros j. unfold offered. cbn [flat_map]. destruct (Z.eqb_spec i (Z.of_nat j)) as [EJ|NJ], (Nat.eqb_spec j (Z.to_nat i)) as [EK|NK]; try reflexivity; lia. }
    specialize (X FA HO1 (fun _ => eq_refl) (n_on_peer d0 _ _ (n_packet i pkt)) S0).
    destruct (on_peer _ _ _) as [d' e]. exact X.
  - unfold poll. set (d1 := (up_poll _ _ _, snd d0)). apply SI_tick; [exact W0|lia|exact S0].
  - unfold packet_receive. destruct (zlen b <? 4); [cbn [fst snd]; rewrite app_nil_r; exact S0|]. cbn zeta. destruct d0 as [g ps]. cbn [snd] in L.
    assert (S00 : SI (g, ps) (tr ++ [])) by (rewrite app_nil_r; exact S0).
    assert (S1 : SI (up_hpc g (u16 (g_hpc g + 1)), ps) (tr ++ [])) by exact S00.
    destruct (_ =? 1); [|destruct (_ =? 2); [|destruct (_ =? 3); [|destruct (_ =? 4); [|exact S00]]]].
    + unfold handle_initiation. destruct (zlen b <? INIT_LEN); [exact S00|].
      assert (QQ : forall st, let res := (if g_load g && negb (match st with MacCookie => true | _ => false end)
        then send_reply C (g, ps) b (Z.to_nat INIT_MAC) ip port else let g1 := up_hpc g (u16 (g_hpc g + 1)) in
        match consume_initiation C g1 ps b with None => ((g1, ps), []) | Some (i, p, ts) =>
          let (d', e) := on_peer (g1, lset ps i p) i (answer C (Z.of_nat i) ip port) in (d', EHello (Z.of_nat i) ts (g_now g) :: e) end) in SI (fst res) (tr ++ snd res)).
      { intros st. cbn zeta. destruct (_ && _); [apply SI_reply, S0|]. destruct (consume_initiation C _ ps b) as [[[k p] ts]|] eqn:EC; [|exact S1].
        pose proof (consume_initiation_facts _ _ _ _ _ _ _ EC) as (C1 & C2 & C3 & C4 & C5 & C6).
        assert (X1 : SI (up_hpc g (u16 (g_hpc g + 1)), lset ps k p) (tr ++ [EHello (Z.of_nat k) ts (g_now g)])).
        { eapply SI_neutral; [exact S0|cbn [snd]; apply lset_length|apply lset_fields; assumption|reflexivity|reflexivity]. }
        assert (X2 : dev_wf (up_hpc g (u16 (g_hpc g + 1)), lset ps k p)) by (apply lset_wf; [exact W0|]; eapply wf_fields; [apply (nth_wf (g, ps) k W0)|assumption..]).
        pose proof (SI_act _ k (answer C (Z.of_nat k) ip port) _ X2 ltac:(lia) (answer_good C _ ip port) (answer_fair _ ip port) (n_answer _ ip port) X1) as X3.
        destruct (on_peer _ _ _) as [d' e]. cbn [fst snd] in *. rewrite <- app_assoc in X3. exact X3. }
      destruct (cookie_validate C (g_chk g) b (Z.to_nat INIT_MAC) ip port (g_now g)); [exact S00|apply (QQ MacValid)|apply (QQ MacCookie)].
    + unfold handle_response. destruct (zlen b <? RESP_LEN); [exact S00|].
      assert (QQ : forall st, let res := (if g_load g && negb (match st with MacCookie => true | _ => false end)
        then send_reply C (g, ps) b (Z.to_nat RESP_MAC) ip port else let g1 := up_hpc g (u16 (g_hpc g + 1)) in
        match find_wait ps (mr_receiver b) 0 with None => ((g1, ps), []) | Some i => let p := nth i ps peer_zero in
          match consume_response C g1 (p_hs p) b with None => ((g1, ps), []) | Some h1 =>
             on_peer (g1, lset ps i (up_ep (up_hs p h1) ip port)) i (finish C (Z.of_nat i) (first_keepalive C (Z.of_nat i))) end end) in SI (fst res) (tr ++ snd res)).
      { intros st. cbn zeta. destruct (_ && _); [apply SI_reply, S0|]. destruct (find_wait ps (mr_receiver b) 0) as [k|] eqn:EF; [|exact S1]. apply find_wait_bound in EF.
        destruct (consume_response C _ _ b) as [h1|]; [|exact S1].
        apply SI_act; [|lia|apply finish_good, first_keepalive_good|apply finish_fair, fair_still, first_still|apply n_finish, n_first|].
        - apply lset_wf; [exact W0|]. eapply wf_fields; [apply (nth_wf (g, ps) k W0)|reflexivity|reflexivity|reflexivity].
        - rewrite <- (app_nil_r tr). eapply SI_neutral; [exact S0|cbn [snd]; apply lset_length|apply lset_fields; reflexivity|reflexivity|reflexivity]. }
      destruct (cookie_validate C (g_chk g) b (Z.to_nat RESP_MAC) ip port (g_now g)); [exact S00|apply (QQ MacValid)|apply (QQ MacCookie)].
    + unfold handle_cookie. destruct (zlen b <? 72); [exact S00|]. destruct (find_mac1 _ _ 0) as [k|]; [|exact S00]. cbn [fst snd].
      eapply SI_neutral; [exact S0|cbn [snd]; apply lset_length|apply lset_fields; reflexivity|reflexivity|reflexivity].
    + unfold handle_data. destruct (zlen b <? 32); [exact S00|]. cbn zeta. destruct (find_idx ps _ 0) as [[k s]|]; [|exact S00].
      destruct (negb _); [exact S00|]. destruct (_ <=? _); [exact S00|]. destruct (_ <? _); [exact S00|]. destruct (c_dec _ _ _ _ _) as [pt|]; [|exact S00].
      destruct (wg_counter_validate _ _) as [rx ok]. destruct ok; cbn [negb fst snd].
      * eapply SI_neutral; [exact S0|cbn [snd]; apply lset_length|apply lset_fields; reflexivity| |]; intros j; destruct (wg_inject _ _ _); reflexivity.
      * eapply SI_neutral; [exact S0|cbn [snd]; apply lset_length|apply lset_fields; reflexivity|reflexivity|reflexivity].
Qed.

Lemma SI_run ops : forall d tr, dev_wf d -> hist_ok (g_now (fst d)) ops -> SI d tr -> SI (fst (run C d ops)) (tr ++ snd (run C d ops)).
Proof.
  induction ops as [|(o, r) ops IH]; intros d tr W HO S; cbn [run]; [cbn [fst snd]; rewrite app_nil_r; exact S|].
  destruct HO as (HO1 & HO2). pose proof (SI_step d o r tr W HO1 S) as S1. destruct (step_ok C d o r W HO1) as ((W1 & _) & EN).
  destruct (step C d o r) as [d1 e1]. cbn [fst snd] in *. specialize (IH d1 _ W1 ltac:(rewrite EN; exact HO2) S1).
  destruct (run C d1 ops) as [d2 e2]. cbn [fst snd] in *. rewrite app_assoc. exact IH.
Qed.

(** C71, first part.  Whatever happens, counting with multiplicity: the packets
    encrypted to peer [i] and those still waiting for it are among the packets
    the stack handed over for it - none is sent twice, altered or sent to
    another peer - and at most 16 wait. *)
Theorem wg_packets_sent_once : forall ops i x, hist_ok 0 ops -> (i < 8)%nat ->
  (cnt (sent (Z.of_nat i) (trace C ops)) x + cnt (map pad (waiting (nth i (snd (fst (run C dev_init ops))) peer_zero))) x
   <= cnt (offered (Z.of_nat i) (trace C ops)) x)%nat /\
  (length (waiting (nth i (snd (fst (run C dev_init ops))) peer_zero)) <= 16)%nat.
Proof.
  intros ops i x H Hi. assert (S0 : SI dev_init []).
  { split; [repeat constructor; cbn; lia|]. intros j y Hj. do 8 (destruct j as [|j]; [cbn; lia|]). lia. }
  destruct (SI_run ops dev_init [] dev_init_wf H S0) as (F & S). split; [apply (S i x Hi)|].
  pose proof (qok_nth _ i F) as Q. destruct Q. unfold waiting. rewrite firstn_length. lia.
Qed.

(** ** A completed handshake sends what waits *)
(** The transport messages of a trace: peer, key, counter, plaintext. *)
Definition encs (tr : list ev) : list (Z * list Z * Z * list Z) :=
  flat_map (fun e => match e with EEnc i k c pt _ => [(i, k, c, pt)] | _ => [] end) tr.
Lemma encs_app a b : encs (a ++ b) = encs a ++ encs b.
Proof. apply flat_map_app. Qed.
Fixpoint numbered (i : Z) (key : list Z) (c : Z) (l : list (list Z)) : list (Z * list Z * Z * list Z) :=
  match l with [] => [] | q :: l' => (i, key, c, q) :: numbered i key (c + 1) l' end.

(** What a completed handshake sends: what waits, or one empty message. *)
Definition flushed (queue : list (list Z)) : list (list Z) := match queue with [] => [[]] | _ => map pad queue end.

(** The datagrams of a trace, and those that carry [l] under [key] to receiver
    index [ri], numbered from [c]. *)
Definition udps (tr : list ev) : list (list Z) := flat_map (fun e => match e with EUdp _ _ b => [b] | _ => [] end) tr.
Lemma udps_app a b : udps (a ++ b) = udps a ++ udps b. Proof. apply flat_map_app. Qed.
Definition sealed (key : list Z) (c : Z) (q : list Z) : list Z := match c_enc C key c q [] with Some ct => ct | None => [] end.
Fixpoint wires (ri : Z) (key : list Z) (c : Z) (l : list (list Z)) : list (list Z) :=
  match l with [] => [] | q :: l' => (data_header ri c ++ sealed key c q) :: wires ri key (c + 1) l' end.

Record fresh (ri : Z) (g : gdev) (p : peer) (s : nat) (key : list Z) (c : Z) : Prop := {
  fr_cur : s_cur (p_kps p) = Some s; fr_len : (s < length (s_slots (p_kps p)))%nat;
  fr_key : k_skey (slot (p_kps p) s) = key; fr_val : k_svalid (slot (p_kps p) s) = true;
  fr_birth : k_sbirth (slot (p_kps p) s) = g_now g; fr_ctr : k_sctr (slot (p_kps p) s) = c; fr_ri : k_ridx (slot (p_kps p) s) = ri
}.
Lemma pad_len_1536 n : 0 <= n <= 1536 -> pad_len n <= 1536.
Proof.
  intros H. unfold pad_len. pose proof (Z.mod_pos_bound n 16 ltac:(lia)). pose proof (Z.div_mod n 16 ltac:(lia)). destruct (Z.eqb_spec (n mod 16) 0); [lia|].
  assert (n / 16 < 96) by (apply Z.div_lt_upper_bound; lia). lia.
Qed.
Lemma u64_small x : 0 <= x < 18446744073709551616 -> u64 x = x.
Proof. apply Z.mod_small. Qed.

Context (Henc : forall k n p a, c_enc C k n p a <> None).

Lemma packet_send_fresh ri i pkt g p s key c : fresh ri g p s key c -> 0 <= c < 2 ^ 59 -> zlen pkt <= 1536 ->
  exists p' e, packet_send C i pkt g p = (g, p', e) /\ fresh ri g p' s key (c + 1) /\ p_arr p' = p_arr p /\ p_cnt p' = p_cnt p /\ encs e = [(i, key, c, pad pkt)] /\ udps e = [data_header ri c ++ sealed key c (pad pkt)].
Proof.
  intros [F1 F2 F3 F4 F5 F6 F7] HC HL. unfold packet_send. rewrite F1, F4. cbn [negb]. rewrite F5, F6, F3, Z.sub_diag. change (u64 0) with 0.
  assert (E1 : (REKEY_AFTER_MESSAGES <=? c) = false) by (unfold REKEY_AFTER_MESSAGES; lia). rewrite E1. cbn [orb]. change (REJECT_AFTER_MS <=? 0) with false. cbn [orb].
  assert (E2 : (LINK_MTU <? pad_len (zlen pkt)) = false). { pose proof (pad_len_1536 (zlen pkt) ltac:(unfold zlen in *; lia)). unfold LINK_MTU. lia. } rewrite E2.
  unfold sealed. pose proof (Henc key c (pad pkt) []) as HE. destruct (c_enc C key c (pad pkt) []) as [ct|]; [|congruence].
  rewrite u64_small by lia. assert (E3 : (REKEY_AFTER_MESSAGES <=? c + 1) = false) by (unfold REKEY_AFTER_MESSAGES; lia). rewrite E3.
  change (REKEY_AFTER_MS <=? 0) with false. cbn [orb andb]. eexists _, _. split; [reflexivity|]. split; [|split; [reflexivity|]; split; [reflexivity|]; split; [reflexivity|]; cbn [udps flat_map app]; rewrite F7; reflexivity].
  assert (SL : forall v, slot (up_slot (p_kps p) s v) s = v) by (intros v; unfold slot, up_slot; cbn [s_slots]; apply nth_lset_eq; exact F2).
  constructor; [exact F1|change (s < length (lset (s_slots (p_kps p)) s (kp_ctr (slot (p_kps p) s) (c + 1))))%nat; rewrite lset_length; exact F2|..];
    change (p_kps (up_tsent (up_kps p (up_slot (p_kps p) s (kp_ctr (slot (p_kps p) s) (c + 1)))) (g_now g) (u64 (p_txb (up_kps p (up_slot (p_kps p) s (kp_ctr (slot (p_kps p) s) (c + 1)))) + zlen pkt))))
      with (up_slot (p_kps p) s (kp_ctr (slot (p_kps p) s) (c + 1))); rewrite SL; [exact F3|exact F4|exact F5|reflexivity|exact F7].
Qed.

Lemma nth_skipn_cons {A} (l : list A) j d : (j < length l)%nat -> skipn j l = nth j l d :: skipn (S j) l.
Proof.
  revert j. induction l as [|x l IH]; intros j H; cbn in H; [lia|]. destruct j; [reflexivity|]. cbn [skipn nth]. apply IH. lia.
Qed.

Lemma staged_loop_fresh ri i s key n : forall j g p c, fresh ri g p s key c -> 0 <= c -> c + Z.of_nat n < 2 ^ 59 -> qok p -> (j + n <= 16)%nat -> p_cnt p = 0 ->
  exists p' e, staged_loop C i n j g p = (g, p', e) /\ fresh ri g p' s key (c + Z.of_nat n) /\ p_cnt p' = 0 /\
    encs e = numbered i key c (map pad (firstn n (skipn j (p_arr p)))) /\ udps e = wires ri key c (map pad (firstn n (skipn j (p_arr p)))).
Proof.
  induction n as [|n IH]; intros j g p c FR HC HN Q HL H0; cbn [staged_loop].
  - exists p, []. split; [reflexivity|]. rewrite Z.add_0_r. split; [exact FR|]. split; [exact H0|split; reflexivity].
  - pose proof Q as [Q1 Q2 Q3]. set (pkt := nth j (p_arr p) []). set (p0 := up_stg p (lset (p_arr p) j []) (p_cnt p)).
    assert (FR0 : fresh ri g p0 s key c) by (destruct FR; constructor; assumption).
    assert (LP : zlen pkt <= 1536). { unfold pkt. rewrite Forall_forall in Q3. apply Q3. apply nth_In. lia. }
    destruct (packet_send_fresh ri i pkt g p0 s key c FR0 ltac:(lia) LP) as (p1 & e1 & E1 & FR1 & A1 & A2 & A3 & A4).
    assert (Qp1 : qok p1). { apply (qok_fields p0 p1 A1 A2). constructor; cbn [p0 up_stg p_arr p_cnt]; [rewrite lset_length; exact Q1|exact Q2|apply Forall_lset; [exact Q3|cbn; lia]]. }
    destruct (IH (S j) g p1 (c + 1) FR1 ltac:(lia) ltac:(lia) Qp1 ltac:(lia) ltac:(rewrite A2; exact H0)) as (p2 & e2 & E2 & FR2 & B1 & B2 & B3).
    unfold seq. rewrite E1, E2. exists p2, (e1 ++ e2). split; [reflexivity|]. split; [replace (c + Z.of_nat (S n)) with (c + 1 + Z.of_nat n) by lia; exact FR2|]. split; [exact B1|].
    rewrite encs_app, udps_app, A3, A4, B2, B3, A1. cbn [p0 up_stg p_arr]. rewrite skipn_lset_gt by lia. rewrite (nth_skipn_cons (p_arr p) j []) by lia. split; reflexivity.
Qed.

Lemma finish_flush i g p : peer_wf p -> qok p -> h_state (p_hs p) = ConsumedResp -> 0 <= g_now g < 2 ^ 64 ->
  exists sk rk p' e, finish C i (first_keepalive C i) g p = (g, p', ENew i sk rk (g_now g) :: e) /\ waiting p' = [] /\ (forall x y t, ~ In (ENew i x y t) e) /\
    encs e = numbered i sk 0 (flushed (waiting p)) /\ udps e = wires (h_ridx (p_hs p)) sk 0 (flushed (waiting p)) /\ (sk, rk) = kdf2 C (h_ck (p_hs p)) [].
Proof.
  intros WP Q HS HN. unfold finish, begin_session. rewrite HS. cbn [hs_eqb negb andb]. destruct (kdf2 C (h_ck (p_hs p)) []) as [t1 t2].
  pose proof (drop_next_wf _ (pw_kps _ WP)) as DW. destruct (free_slot_spec _ DW) as (S3 & S4 & S5).
  set (k1 := drop_next (p_kps p)) in *. set (s := free_slot k1) in *. set (nk := mkKp t1 _ _ _ _ _ _ _ _ _ _).
  set (p1 := up_tdone _ _).
  assert (FR : fresh (h_ridx (p_hs p)) g p1 s t1 0).
  { assert (LS : (s < length (s_slots k1))%nat) by (rewrite (kw_len _ DW); exact S3).
    constructor; cbn [p1 up_tdone up_kps p_kps s_cur s_slots]; unfold slot; cbn [s_slots]; rewrite ?lset_length; try assumption; try reflexivity; rewrite nth_lset_eq by assumption; reflexivity. }
  assert (Q1 : qok p1) by (apply (qok_fields p); [reflexivity|reflexivity|exact Q]).
  assert (W1 : waiting p1 = waiting p) by reflexivity. clearbody p1. destruct Q1 as [QA QB QC].
  unfold seq, send_staged.
  destruct (staged_loop_fresh (h_ridx (p_hs p)) i s t1 (Z.to_nat (p_cnt p1)) 0 g (up_stg p1 (p_arr p1) 0) 0) as (p2 & e2 & E2 & FR2 & B1 & B2 & B4).
  { destruct FR. constructor; assumption. } { lia. } { lia. } { constructor; cbn [up_stg p_arr p_cnt]; [exact QA|lia|exact QC]. } { lia. } { reflexivity. }
  rewrite E2. cbn [up_stg p_arr] in B2, B4. change (skipn 0 (p_arr p1)) with (p_arr p1) in B2, B4. fold (waiting p1) in B2, B4.
  assert (W2 : waiting p2 = []) by (unfold waiting; rewrite B1; reflexivity).
  assert (LW : length (waiting p1) = Z.to_nat (p_cnt p1)) by (unfold waiting; rewrite firstn_length; lia).
  assert (NN : forall (a : list ev) x y t, (forall w, In w a -> match w with ENew _ _ _ _ => False | _ => True end) -> ~ In (ENew i x y t) a).
  { intros a x y t H I. exact (H _ I). }
  assert (NL : forall n j q, let '(_, _, e) := staged_loop C i n j g q in forall w, In w e -> match w with ENew _ _ _ _ => False | _ => True end).
  { assert (NI : forall g q, let '(_, _, e) := initiate C i g q in forall w, In w e -> match w with ENew _ _ _ _ => False | _ => True end).
    { clear. intros g q. unfold initiate. destruct (create_initiation C g (p_hs q)) as [[? ?] [?|]]; [|intros w [<-|[]]; exact I]. destruct (add_macs C _ _ _). intros w [<-|[<-|[]]]; exact I. }
    assert (NP : forall pkt g q, let '(_, _, e) := packet_send C i pkt g q in forall w, In w e -> match w with ENew _ _ _ _ => False | _ => True end).
    { clear - NI. intros pkt g q. unfold packet_send.
      assert (NS : let '(_, _, e) := (let p1 := stage q pkt in if hs_eqb (h_state (p_hs p1)) Zeroed then initiate C i g p1 else (g, p1, [])) in
        forall w, In w e -> match w with ENew _ _ _ _ => False | _ => True end).
      { cbn zeta. destruct (hs_eqb _ _); [apply NI|intros w []]. }
      destruct (s_cur (p_kps q)) as [s|]; [|exact NS]. destruct (negb _); [exact NS|]. cbn zeta. destruct (_ || _); [intros w []|]. destruct (_ <? _); [intros w []|].
      destruct (c_enc _ _ _ _ _) as [ct|]; [|intros w []]. destruct (_ && _); [|intros w [<-|[<-|[]]]; exact I].
      match goal with |- context [initiate C i ?a ?b] => pose proof (NI a b) as X; destruct (initiate C i a b) as [[? ?] ?] end. intros w Iw. apply in_app_or in Iw.
      destruct Iw as [[<-|[<-|[]]]|Iw]; try exact I. apply X, Iw. }
    clear - NP. intros n. generalize g. clear g. induction n as [|n IH]; intros g j q; cbn [staged_loop]; [intros w []|]. unfold seq.
    match goal with |- context [packet_send C i ?a ?b ?d] => specialize (NP a b d); destruct (packet_send C i a b d) as [[g1 p1] e1] end. specialize (IH g1 (S j) p1).
    destruct (staged_loop C i n (S j) g1 p1) as [[g2 p2] e2]. intros w I. apply in_app_or in I. destruct I as [I|I]; [apply NP, I|apply IH, I]. }
  specialize (NL (Z.to_nat (p_cnt p1)) 0%nat (up_stg p1 (p_arr p1) 0)). rewrite E2 in NL.
  unfold first_keepalive. rewrite (fr_cur _ _ _ _ _ _ FR2), (fr_ctr _ _ _ _ _ _ FR2). rewrite W1 in *. destruct (waiting p) as [|w0 wl].
  - cbn [length] in LW. assert (E0 : Z.to_nat (p_cnt p1) = O) by lia. rewrite E0 in *. change (0 + Z.of_nat 0) with 0 in *. change (0 =? 0) with true. cbn match.
    unfold keepalive. rewrite (fr_cur _ _ _ _ _ _ FR2), (fr_val _ _ _ _ _ _ FR2), (fr_birth _ _ _ _ _ _ FR2), (fr_ctr _ _ _ _ _ _ FR2), (fr_key _ _ _ _ _ _ FR2). cbn [negb].
    change (WG_REJECT_AFTER_MESSAGES <=? 0) with false. rewrite Z.sub_diag. change (REJECT_AFTER_MS <=? u64 0) with false. cbn match.
    pose proof (Henc t1 0 [] []) as HE. destruct (c_enc C t1 0 [] []) as [ct|] eqn:ECT; [|congruence]. eexists t1, t2, _, _. split; [reflexivity|].
    split; [exact W2|]. split.
    + intros x y t. apply NN. intros w Iw. apply in_app_or in Iw. destruct Iw as [Iw|[<-|[<-|[]]]]; [apply NL, Iw|exact I|exact I].
    + split; [rewrite encs_app, B2; reflexivity|]. split; [|reflexivity]. rewrite udps_app, B4. cbn [udps flat_map app wires flushed length Z.to_nat firstn map numbered]. unfold sealed. rewrite ECT, (fr_ri _ _ _ _ _ _ FR2). reflexivity.
  - destruct (Z.eqb_spec (0 + Z.of_nat (Z.to_nat (p_cnt p1))) 0) as [E0|E0]; [cbn in LW; lia|]. eexists t1, t2, _, _. split; [reflexivity|]. split; [exact W2|]. rewrite app_nil_r. split.
    + intros x y t. apply NN, NL.
    + split; [exact B2|]. split; [exact B4|reflexivity].
Qed.

Lemma qok_run ops : hist_ok 0 ops -> Forall qok (snd (fst (run C dev_init ops))).
Proof.
  intros H. assert (S0 : SI dev_init []).
  { split; [repeat constructor; cbn; lia|]. intros j y Hj. do 8 (destruct j as [|j]; [cbn; lia|]). lia. }
  exact (proj1 (SI_run ops dev_init [] dev_init_wf H S0)).
Qed.

Lemma consume_response_st g h b h1 : consume_response C g h b = Some h1 -> h_state h1 = ConsumedResp.
Proof.
  unfold consume_response. destruct (negb _); [discriminate|]. cbn zeta. destruct (c_dh _ _ _); [|discriminate]. destruct (c_dh _ _ _); [|discriminate].
  destruct (kdf3 C _ _) as [[? ?] ?]. destruct (c_dec _ _ _ _ _); [|discriminate]. intros EC. injection EC as <-. reflexivity.
Qed.

(** C71, second part.  A response that completes a handshake sends every waiting
    packet of that peer at once, oldest first, numbered from 0 under the new key;
    with none waiting, one empty message is sent (so the responder can use the
    session).  Encryption is assumed not to fail. *)
Theorem wg_response_flushes : forall ops b ip port r i sk rk t,
  hist_ok 0 (ops ++ [(ORecv b ip port, r)]) -> rdle32 b = 2 ->
  let d := fst (run C dev_init ops) in
  let d' := fst (step C d (ORecv b ip port) r) in
  let e := snd (step C d (ORecv b ip port) r) in
  In (ENew i sk rk t) e ->
  let queue := waiting (nth (Z.to_nat i) (snd d) peer_zero) in
  waiting (nth (Z.to_nat i) (snd d') peer_zero) = [] /\
  encs e = numbered i sk 0 (flushed queue).
Proof.
  intros ops b ip port r i sk rk t HO TY d d' e H. pose proof (hist_app _ _ _ HO) as HO1. pose proof (qok_run ops HO1) as Q.
  assert (W : dev_wf d /\ 0 <= g_now (fst d) < 2 ^ 64).
  { unfold d. clear - HO1. assert (X : forall l d0, dev_wf d0 -> 0 <= g_now (fst d0) < 2 ^ 64 -> hist_ok (g_now (fst d0)) l -> dev_wf (fst (run C d0 l)) /\ 0 <= g_now (fst (fst (run C d0 l))) < 2 ^ 64).
    { induction l as [|(o, x) l IH]; intros d0 W0 N0 HH; cbn [run]; [split; assumption|]. destruct HH as (H1 & H2). destruct (step_ok C d0 o x W0 H1) as ((W1 & _) & EN).
      destruct (step C d0 o x) as [d1 e1]. cbn [fst snd] in *. specialize (IH d1 W1). rewrite EN in IH. destruct (run C d1 l) as [d2 e2]. cbn [fst] in *. apply IH; [|exact H2].
      destruct o; cbn [op_ok op_now] in *; lia. }
    apply X; [apply dev_init_wf|cbn; lia|exact HO1]. }
  destruct W as (W & HN). fold d in Q. clearbody d. cbv zeta. unfold d', e in *. clear d' e. unfold step in *.
  destruct d as [g00 ps]. cbn [fst snd] in *. assert (HN0 : 0 <= g_now (up_rng g00 r) < 2 ^ 64) by exact HN. clear HN. rename HN0 into HN.
  assert (W0 : dev_wf (up_rng g00 r, ps)) by exact W. clear W. revert H HN W0. generalize (up_rng g00 r). intros g H HN W0. clear HO.
  unfold packet_receive in *. destruct (zlen b <? 4); [exact (False_ind _ H)|]. rewrite TY in *. change (2 =? 1) with false in *. change (2 =? 2) with true in *. cbn match in *.
  cbn [snd fst] in *. unfold handle_response in *. destruct (zlen b <? RESP_LEN); [exact (False_ind _ H)|].
  pose proof W0 as (L & _). cbn [snd] in L.
  assert (MAIN : forall st, let res := (if g_load g && negb (match st with MacCookie => true | _ => false end)
        then send_reply C (g, ps) b (Z.to_nat RESP_MAC) ip port else let g1 := up_hpc g (u16 (g_hpc g + 1)) in
        match find_wait ps (mr_receiver b) 0 with None => ((g1, ps), []) | Some i => let p := nth i ps peer_zero in
          match consume_response C g1 (p_hs p) b with None => ((g1, ps), []) | Some h1 =>
             on_peer (g1, lset ps i (up_ep (up_hs p h1) ip port)) i (finish C (Z.of_nat i) (first_keepalive C (Z.of_nat i))) end end) in
     In (ENew i sk rk t) (snd res) -> waiting (nth (Z.to_nat i) (snd (fst res)) peer_zero) = [] /\
     encs (snd res) = numbered i sk 0 (flushed (waiting (nth (Z.to_nat i) ps peer_zero)))).
  { intros st. cbv zeta. match goal with |- context [if ?x then send_reply _ _ _ _ _ _ else _] => destruct x end.
    { unfold send_reply. destruct (create_reply C (fst (g, ps)) b _ ip port) as [g' [m|]]; intros Fa; exfalso; cbv [snd In] in Fa; [destruct Fa as [Fa|Fa]; [discriminate Fa|exact Fa]|exact Fa]. }
    destruct (find_wait ps (mr_receiver b) 0) as [k|] eqn:EF; [|intros Fa; exact (False_ind _ Fa)]. apply find_wait_bound in EF. set (g1 := up_hpc _ _). set (p := nth k ps peer_zero).
    destruct (consume_response C g1 (p_hs p) b) as [h1|] eqn:EC; [|intros Fa; exact (False_ind _ Fa)].
    assert (HS : h_state h1 = ConsumedResp).
    { exact (consume_response_st _ _ _ _ EC). }
    unfold on_peer. cbn [fst snd]. rewrite nth_lset_eq by lia. set (p1 := up_ep (up_hs p h1) ip port).
    assert (WP : peer_wf p1) by (eapply wf_fields; [apply (nth_wf (g, ps) k W0)|reflexivity|reflexivity|reflexivity]).
    assert (QP : qok p1) by (apply (qok_fields p); [reflexivity|reflexivity|]; apply (qok_nth (g, ps) k), Q).
    destruct (finish_flush (Z.of_nat k) g1 p1 WP QP HS HN) as (sk1 & rk1 & p2 & e2 & E & E1 & E2 & E3 & _). rewrite E. cbn [fst snd].
    assert (E4 : forall x y u, In (ENew i x y u) e2 -> i = Z.of_nat k).
    { intros x y u Iw. pose proof (finish_good C (Z.of_nat k) (first_keepalive C (Z.of_nat k)) (first_keepalive_good C _) g1 p1 WP) as G. rewrite E in G. destruct G as (_ & _ & _ & _ & G).
      clear - G Iw. remember (ENew (Z.of_nat k) sk1 rk1 (g_now g1) :: e2) as l eqn:EL. assert (IN : In (ENew i x y u) l) by (rewrite EL; right; exact Iw). clear - G IN.
      induction G as [|V V1 V2 a1 a2 K1 K2 IH]; [destruct IN|]. apply in_app_or in IN. destruct IN as [IN|IN]; [|apply IH, IN].
      destruct K1; cbn [In] in IN; try contradiction IN; destruct IN as [IN|IN]; try contradiction IN; try discriminate IN; [congruence|]. subst e. match goal with HH : neutral _ |- _ => destruct HH end. }
    intros [X|X].
    - injection X as <- <- <- <-. rewrite Nat2Z.id, nth_lset_eq by (rewrite lset_length; lia). split; [exact E1|exact E3].
    - exfalso. pose proof (E4 _ _ _ X) as ->. exact (E2 _ _ _ X). }
  destruct (cookie_validate C (g_chk g) b (Z.to_nat RESP_MAC) ip port (g_now g)); [exact (False_ind _ H)|exact (MAIN MacValid H)|exact (MAIN MacCookie H)].
Qed.

End Staging.
Print Assumptions wg_packets_sent_once.
Print Assumptions wg_response_flushes.

(** The hypotheses are met: one packet waits at A, the response sends it. *)
Example staged_toy :
  map pad (waiting (nth 0 (snd (fst (run toy dev_init opsA1))) peer_zero)) = [pad toy_pkt] /\
  sent 0 (trace toy opsA2) = [pad toy_pkt] /\ offered 0 (trace toy opsA2) = [pad toy_pkt] /\
  hist_ok 0 (opsA1 ++ [(ORecv mResp ipB 51820, [])]) /\ rdle32 mResp = 2 /\
  existsb (fun e => match e with ENew 0 _ _ 1000 => true | _ => false end) (snd (step toy (fst (run toy dev_init opsA1)) (ORecv mResp ipB 51820) [])) = true /\
  (forall k n p a, c_enc toy k n p a <> None).
Proof.
  split; [vm_compute; reflexivity|]. split; [vm_compute; reflexivity|]. split; [vm_compute; reflexivity|].
  split; [exact (proj1 toy_exchange)|]. split; [vm_compute; reflexivity|]. split; [vm_compute; reflexivity|]. intros. discriminate.
Qed.

(** Order is not kept in general: the packets that wait at the responder of a
    handshake are not sent when the initiator's first message makes the session
    usable, so a packet handed over later overtakes them. *)
Definition pktB (n : Z) : list Z := [69;0;0;21;0;0;0;0;64;17;0;0;10;9;0;2;10;9;0;1;n].
Definition opsR1 := setupB ++ [(OOut (pktB 1), [repeat 55 32; idx_block 9]); (ORecv mInit ipA 51820, [repeat 44 32; idx_block 6; repeat 66 32; idx_block 7])].
Definition mRespR := match filter (fun e => match e with EUdp _ _ b => rdle32 b =? 2 | _ => false end) (trace toy opsR1) with EUdp _ _ b :: _ => b | _ => [] end.
Definition opsRA := opsA1 ++ [(ORecv mRespR ipB 51820, [])].
Definition opsR2 := opsR1 ++ [(ORecv (last_udp (trace toy opsRA)) ipA 51820, []); (OOut (pktB 2), [])].
Theorem wg_fifo_refuted : exists (C : crypto) ops, crypto_ok C /\ hist_ok 0 ops /\
  offered 0 (trace C ops) = [pad (pktB 1); pad (pktB 2)] /\ sent 0 (trace C ops) = [pad (pktB 2)] /\
  waiting (nth 0 (snd (fst (run C dev_init ops))) peer_zero) = [pktB 1].
Proof.
  exists toy, opsR2. split; [exact toy_ok|]. split; [apply hist_okb_ok; vm_compute; reflexivity|]. split; [vm_compute; reflexivity|]. split; vm_compute; reflexivity.
Qed.

(** A packet handed over when the session has just expired waits without starting
    a handshake: nothing happens to it, poll as often as one likes, until another
    packet comes. *)
Definition opsE := opsB2 ++ [(OPoll 182000, []); (OOut (pktB 1), [repeat 55 32; idx_block 9]); (OPoll 190000, [repeat 55 32; idx_block 9]); (OPoll 250000, [repeat 55 32; idx_block 9])].
Theorem wg_expired_session_restarts_refuted : exists (C : crypto) ops, crypto_ok C /\ hist_ok 0 ops /\
  offered 0 (trace C ops) = [pad (pktB 1)] /\ waiting (nth 0 (snd (fst (run C dev_init ops))) peer_zero) = [pktB 1] /\
  (forall t b, ~ In (EInit 0 t b) (trace C ops)).
Proof.
  exists toy, opsE. split; [exact toy_ok|]. split; [apply hist_okb_ok; vm_compute; reflexivity|]. split; [vm_compute; reflexivity|]. split; [vm_compute; reflexivity|].
  intros t b I. assert (X : existsb (fun e => match e with EInit _ _ _ => true | _ => false end) (trace toy opsE) = true) by (apply existsb_exists; eexists; split; [exact I|reflexivity]).
  revert X. vm_compute. discriminate.
Qed.
Print Assumptions wg_fifo_refuted.
Print Assumptions wg_expired_session_restarts_refuted.
