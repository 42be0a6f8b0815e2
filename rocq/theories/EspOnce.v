(** C77, histories: a frame delivered once is never delivered again. *)
From Verif Require Import Base Checksum ChecksumProps Arp Forward ForwardSpec ForwardProofs ForwardStep EspReplay EspReplayProps ReplaySpec Esp EspSpec EspWire EspProofs EspTrip EspProps EspAuth.

(** Bookkeeping for the proof: [acc] lists the numbers the association accepted. *)
Definition entry_ok (s : sa) (acc : list Z) : Prop := s = sa_free \/ (sa_ok s /\ sa_icv s <> 0 /\ EInv (sa_rep s) acc).
Definition same_id (s t : sa) : Prop := same_suite s t /\ sa_src t = sa_src s /\ sa_dst t = sa_dst s.
Lemma same_id_refl s : same_id s s. Proof. unfold same_id, same_suite. auto 10. Qed.
Lemma Forall2_refl {A} (R : A -> A -> Prop) l : (forall x, R x x) -> Forall2 R l l.
Proof. intros H. induction l; constructor; auto. Qed.
Lemma Forall2_len {A B} (R : A -> B -> Prop) l m : Forall2 R l m -> length l = length m.
Proof. intros H. induction H; cbn; lia. Qed.
Lemma Forall2_trans {A} (R : A -> A -> Prop) : (forall x y z, R x y -> R y z -> R x z) ->
  forall a b c, Forall2 R a b -> Forall2 R b c -> Forall2 R a c.
Proof.
  intros T a b c H. revert c. induction H; intros c' H2; inversion H2; subst; constructor; eauto.
Qed.
Lemma rd32_bytes l : Forall byte l -> 0 <= rd32 l 4 < 4294967296.
Proof.
  intros H. assert (B : forall i, 0 <= zget l i < 256).
  { intros i. unfold zget. destruct (Nat.ltb_spec (Z.to_nat i) (length l)) as [L|L].
    - pose proof (proj1 (Forall_forall byte l) H _ (nth_In l 0 L)) as X. unfold byte in X. lia.
    - rewrite nth_overflow by lia. lia. }
  unfold rd32. pose proof (B 4). pose proof (B (4 + 1)). pose proof (B (4 + 2)). pose proof (B (4 + 3)). lia.
Qed.
Lemma entry_table ins accs : Forall2 entry_ok ins accs -> table_ok ins.
Proof.
  intros H s Hs. induction H as [|x a ins accs HE H IH]; [contradiction|]. destruct Hs as [<- |Hs]; [|auto].
  destruct HE as [|(? & _)]; auto.
Qed.

(** One frame: what is delivered and what the association has then accepted. *)
Definition frame_ok (f : list Z) : Prop := Forall byte f /\ wellformed f /\ zlen f <= 1536.
Lemma once_step c ins accs f ins' r : crypto_ok c -> frame_ok f -> Forall2 entry_ok ins accs -> esp_in c false ins f = Some (ins', r) ->
  exists accs', Forall2 entry_ok ins' accs' /\ Forall2 same_id ins ins' /\ Forall2 (fun a b : list Z => incl a b) accs accs' /\
    forall h, strip_options f = Some h -> proto h = 50 -> r <> None ->
      let d := skipn 14 h in let q := pkt_seq (esp_part d) in
      exists l1 s l2 a1 a a2, ins = l1 ++ s :: l2 /\ accs = a1 ++ a :: a2 /\ length l1 = length a1 /\
        chosen (has_spi (pkt_spi (esp_part d))) l1 s (src_of d) (dst_of d) /\ ~ In q a /\ accs' = a1 ++ (a ++ [q]) :: a2.
Proof.
  intros LC (HB & WF & MTU) HE H. pose proof (entry_table _ _ HE) as TO.
  destruct (esp_accepts_only_authentic c ins f ins' r LC HB WF MTU TO H) as (h & ES & D & HP). cbv zeta in HP. destruct HP as (HP1 & HP2).
  assert (KEEP : ins' = ins -> (forall h', strip_options f = Some h' -> proto h' = 50 -> r <> None -> False) ->
    exists accs', Forall2 entry_ok ins' accs' /\ Forall2 same_id ins ins' /\ Forall2 (fun a b : list Z => incl a b) accs accs' /\
    forall h, strip_options f = Some h -> proto h = 50 -> r <> None ->
      let d := skipn 14 h in let q := pkt_seq (esp_part d) in
      exists l1 s l2 a1 a a2, ins = l1 ++ s :: l2 /\ accs = a1 ++ a :: a2 /\ length l1 = length a1 /\
        chosen (has_spi (pkt_spi (esp_part d))) l1 s (src_of d) (dst_of d) /\ ~ In q a /\ accs' = a1 ++ (a ++ [q]) :: a2).
  { intros -> N. exists accs. split; [exact HE|]. split; [apply Forall2_refl; exact same_id_refl|]. split; [apply Forall2_refl; intros x; apply incl_refl|].
    intros h' E1 E2 E3. destruct (N h' E1 E2 E3). }
  destruct (Z.eq_dec (proto h) 50) as [P|P].
  2:{ destruct (HP1 P) as (_ & ->). apply KEEP; [reflexivity|]. intros h' E1 E2 _. congruence. }
  destruct (HP2 P) as [(-> & ->)|(l1 & s & l2 & pt & EI & HC & AU & CK & EI' & _)].
  { apply KEEP; [reflexivity|]. intros h' _ _ X. congruence. }
  clear KEEP HP1 HP2. set (d := skipn 14 h) in *. set (q := pkt_seq (esp_part d)) in *. subst ins.
  apply Forall2_app_inv_l in HE. destruct HE as (a1 & aa & H1 & H2 & ->). inversion H2 as [|s0 a l20 a2 HEs H3 X1 X2]; subst.
  destruct HEs as [-> |(OK & NZ & EV)]; [exfalso; destruct HC as (_ & C & _); exact (free_not_covers _ _ C)|].
  assert (RQ : 0 <= q < 4294967296).
  { unfold q, pkt_seq. destruct (Z.leb_spec (zlen h) 33) as [L|L].
    - exfalso. pose proof D as (DL & _). destruct WF as (W1 & _ & W3 & W4 & _). lia.
    - apply rd32_bytes. unfold esp_part. apply Forall_firstn. unfold d. rewrite skipn_skipn. change (20 + 14)%nat with 34%nat.
      destruct D as (DL & _ & _ & _ & DP & _). unfold part in DP. change (Z.to_nat 34) with 34%nat in DP.
      rewrite firstn_all2 in DP by (rewrite skipn_length; unfold zlen in *; lia). rewrite DP. apply Forall_firstn, Forall_skipn. exact HB. }
  specialize (CK NZ). destruct (esp_step (sa_rep s) a q true EV RQ) as (r' & v & EI & HV & EV').
  unfold esp_inbound in EI. rewrite CK in EI. cbn [obind negb] in EI.
  destruct (esp_replay_commit (sa_rep s) q) as [rr|] eqn:CM; [|discriminate]. cbn [obind] in EI.
  assert (rr = r' /\ v = true) as (-> & ->) by (split; congruence).
  destruct (proj1 HV eq_refl) as (_ & _ & (NI & _)).
  assert (AF : after s q = with_rep s r') by (unfold after; rewrite CM; destruct (Z.eqb_spec (sa_icv s) 0); [contradiction|reflexivity]).
  destruct (after_same s q) as (A1 & A2 & A3).
  exists (a1 ++ (a ++ [q]) :: a2). split; [|split; [|split]].
  - apply Forall2_app; [exact H1|]. constructor; [|exact H3]. right. rewrite AF. split; [|split; [exact NZ|exact EV']].
    destruct OK as (O1 & O2 & O3 & O4 & O5 & O6). unfold sa_ok. cbn [sa_spi sa_preiv sa_rep sa_enc sa_auth sa_icv sa_ekey with_rep].
    destruct EV' as (RH & _). split; [assumption|]. split; [assumption|]. split; [assumption|]. split; [lia|]. split; [|exact O6].
    unfold esp_replay_commit in CM. destruct (q <=? r_hi (sa_rep s)).
    + destruct (shl1_u64 _); [|discriminate]. cbn [obind] in CM. injection CM as <-. exact O5.
    + injection CM as <-. exact O5.
  - apply Forall2_app; [apply Forall2_refl; exact same_id_refl|]. constructor; [|apply Forall2_refl; exact same_id_refl]. unfold same_id. auto.
  - apply Forall2_app; [apply Forall2_refl; intros x; apply incl_refl|]. constructor; [|apply Forall2_refl; intros x; apply incl_refl]. intros x Hx. apply in_app_iff. auto.
  - intros h' E1 E2 _. assert (h' = h) as -> by congruence. fold d. cbv zeta. fold q.
    exists l1, s, l2, a1, a, a2. split; [reflexivity|]. split; [reflexivity|]. split; [eapply Forall2_len; exact H1|].
    split; [exact HC|]. split; [exact NI|reflexivity].
Qed.
Lemma once_run c : crypto_ok c -> forall fs ins accs ins' os, Forall frame_ok fs -> Forall2 entry_ok ins accs -> rx_all c ins fs = Some (ins', os) ->
  exists accs', Forall2 entry_ok ins' accs' /\ Forall2 same_id ins ins' /\ Forall2 (fun a b : list Z => incl a b) accs accs'.
Proof.
  intros LC. induction fs as [|f fs IH]; intros ins accs ins' os HF HE H; cbn [rx_all] in H.
  - injection H as <- <-. exists accs. split; [exact HE|]. split; [apply Forall2_refl; exact same_id_refl|apply Forall2_refl; intros x; apply incl_refl].
  - destruct (esp_in c false ins f) as [[ins1 r]|] eqn:EI; [|discriminate]. cbn [obind] in H.
    destruct (rx_all c ins1 fs) as [[ins2 rs]|] eqn:ER; [|discriminate]. cbn [obind] in H. injection H as <- <-.
    inversion HF; subst. destruct (once_step c ins accs f ins1 r LC H1 HE EI) as (accs1 & E1 & E2 & E3 & _).
    destruct (IH ins1 accs1 ins2 rs H2 E1 ER) as (accs2 & F1 & F2 & F3). exists accs2. split; [exact F1|]. split.
    + eapply (Forall2_trans same_id); [|exact E2|exact F2]. intros x y z (X1 & X2 & X3) (Y1 & Y2 & Y3). split; [eapply same_trans; eassumption|split; congruence].
    + eapply (Forall2_trans (fun a b : list Z => incl a b)); [|exact E3|exact F3]. intros x y z X Y. eapply incl_tran; eassumption.
Qed.
Lemma rx_app c : forall fs1 fs2 ins ins' os, rx_all c ins (fs1 ++ fs2) = Some (ins', os) ->
  exists ins1 os1 os2, rx_all c ins fs1 = Some (ins1, os1) /\ rx_all c ins1 fs2 = Some (ins', os2) /\ os = os1 ++ os2 /\ length os1 = length fs1.
Proof.
  induction fs1 as [|f fs1 IH]; intros fs2 ins ins' os H.
  - exists ins, [], os. auto.
  - cbn [app rx_all] in *. destruct (esp_in c false ins f) as [[ins1 r]|]; [|discriminate]. cbn [obind] in *.
    destruct (rx_all c ins1 (fs1 ++ fs2)) as [[ins2 rs]|] eqn:ER; [|discriminate]. cbn [obind] in H. injection H as <- <-.
    destruct (IH _ _ _ _ ER) as (i & o1 & o2 & -> & E2 & -> & EL). exists i, (r :: o1), o2. cbn [obind app length]. auto.
Qed.
(** The first association of a table for a selector is the same one after any history. *)
Lemma chosen_index spi src dst : forall l1 s l2 m1 t m2, Forall2 same_id (l1 ++ s :: l2) (m1 ++ t :: m2) ->
  chosen (has_spi spi) l1 s src dst -> chosen (has_spi spi) m1 t src dst -> length l1 = length m1.
Proof.
  assert (T : forall x y, same_id x y -> has_spi spi x /\ covers x src dst -> has_spi spi y /\ covers y src dst).
  { intros x y ((S1 & _) & S2 & S3). unfold has_spi, covers. rewrite S2, S3, S1. auto. }
  assert (T' : forall x y, same_id x y -> has_spi spi y /\ covers y src dst -> has_spi spi x /\ covers x src dst).
  { intros x y ((S1 & _) & S2 & S3). unfold has_spi, covers. rewrite S2, S3, S1. auto. }
  induction l1 as [|x l1 IH]; intros s l2 [|y m1] t m2 H (A1 & A2 & A3) (B1 & B2 & B3); cbn [app] in H; inversion H; subst; cbn [length]; [reflexivity| | |].
  - exfalso. apply (B3 y (or_introl eq_refl)). eapply T; [eassumption|auto].
  - exfalso. apply (A3 x (or_introl eq_refl)). eapply T'; [eassumption|auto].
  - f_equal. eapply IH; [eassumption| |]; (split; [assumption|]; split; [assumption|]); intros z Hz; [apply A3|apply B3]; right; exact Hz.
Qed.
Lemma app_mid {A} (a1 : list A) a a2 b1 b b2 : a1 ++ a :: a2 = b1 ++ b :: b2 -> length a1 = length b1 -> a = b.
Proof.
  revert b1. induction a1 as [|x a1 IH]; intros [|y b1] E L; cbn in *; try discriminate; [congruence|]. injection E as _ E. apply (IH b1); [exact E|lia].
Qed.

(** Every association has integrity protection and starts with an unused window. *)
Definition protected (ins : list sa) : Prop :=
  forall s, In s ins -> s = sa_free \/ (sa_ok s /\ sa_icv s <> 0 /\ r_hi (sa_rep s) = 64 /\ r_bitmap (sa_rep s) = 0).

(** C77, replays.  When every association of a host has integrity protection and
    a fresh window, an ESP frame from which something was delivered is never
    delivered from again, whatever else has arrived before or in between. *)
Theorem esp_replay_dropped : forall c ins fs1 f fs2 ins' os,
  crypto_ok c -> protected ins -> Forall frame_ok (fs1 ++ f :: fs2 ++ [f]) ->
  (forall h, strip_options f = Some h -> proto h = 50) ->
  rx_all c ins (fs1 ++ f :: fs2 ++ [f]) = Some (ins', os) ->
  nth_error os (length fs1) <> Some None ->
  nth_error os (length fs1 + 1 + length fs2) = Some None.
Proof.
  intros c ins fs1 f fs2 ins' os LC PR HF HP H HN.
  assert (HE : Forall2 entry_ok ins (map (fun _ => []) ins)).
  { clear - PR. induction ins as [|s ins IH]; cbn [map]; constructor.
    - destruct (PR s (or_introl eq_refl)) as [|(OK & NZ & E1 & E2)]; [left; auto|right]. split; [exact OK|]. split; [exact NZ|].
      unfold EInv. rewrite E1, E2. split; [lia|]. split; [lia|]. split; [reflexivity|]. intros i _. rewrite Z.bits_0. cbn. intuition discriminate.
    - apply IH. intros x Hx. apply PR. right. exact Hx. }
  apply Forall_app in HF. destruct HF as (F1 & F2). inversion F2 as [|? ? FF F3]; subst. apply Forall_app in F3. destruct F3 as (F3 & _).
  destruct (rx_app _ _ _ _ _ _ H) as (i1 & o1 & o2 & R1 & R2 & -> & L1).
  destruct (once_run c LC _ _ _ _ _ F1 HE R1) as (ac1 & HE1 & _ & _).
  cbn [rx_all] in R2. destruct (esp_in c false i1 f) as [[i2 r]|] eqn:EF; [|discriminate]. cbn [obind] in R2.
  destruct (rx_all c i2 (fs2 ++ [f])) as [[i3 rs]|] eqn:ER; [|discriminate]. cbn [obind] in R2. injection R2 as <- <-.
  destruct (rx_app _ _ _ _ _ _ ER) as (i4 & o3 & o4 & R3 & R4 & -> & L3).
  destruct (once_step c i1 ac1 f i2 r LC FF HE1 EF) as (ac2 & HE2 & ID2 & _ & D2).
  destruct (once_run c LC _ _ _ _ _ F3 HE2 R3) as (ac3 & HE3 & ID3 & IN3).
  cbn [rx_all] in R4. destruct (esp_in c false i4 f) as [[i5 r5]|] eqn:EF5; [|discriminate]. cbn [obind] in R4. injection R4 as <- <-.
  destruct (once_step c i4 ac3 f i5 r5 LC FF HE3 EF5) as (ac5 & _ & _ & _ & D5).
  rewrite nth_error_app2 in HN |- * by lia. replace (length fs1 - length o1)%nat with 0%nat in HN by lia. cbn [nth_error] in HN.
  replace (length fs1 + 1 + length fs2 - length o1)%nat with (S (length o3 + 0)) by lia. cbn [nth_error].
  rewrite nth_error_app2 by lia. replace (length o3 + 0 - length o3)%nat with 0%nat by lia. cbn [nth_error]. f_equal.
  destruct r5 as [g|]; [exfalso|reflexivity].
  destruct FF as (HB & WF & _). destruct (strip_spec f HB WF) as (h & ES & _). specialize (HP h ES).
  specialize (D2 h ES HP ltac:(congruence)). specialize (D5 h ES HP ltac:(discriminate)). cbv zeta in D2, D5.
  destruct D2 as (l1 & s & l2 & a1 & a & a2 & -> & -> & LL & C2 & _ & ->).
  destruct D5 as (m1 & t & m2 & b1 & b & b2 & -> & -> & MM & C5 & NI & _).
  assert (ID : Forall2 same_id (l1 ++ s :: l2) (m1 ++ t :: m2)).
  { eapply (Forall2_trans same_id); [|exact ID2|exact ID3]. intros x y z (X1 & X2 & X3) (Y1 & Y2 & Y3). split; [eapply same_trans; eassumption|split; congruence]. }
  pose proof (chosen_index _ _ _ _ _ _ _ _ _ ID C2 C5) as LI.
  apply Forall2_app_inv_l in IN3. destruct IN3 as (e1 & ee & G1 & G2 & E). inversion G2; subst.
  assert (y = b).
  { symmetry. eapply app_mid; [exact E|]. apply Forall2_len in G1. lia. }
  subst y. apply NI. match goal with HH : incl (a ++ _) b |- _ => apply HH end. apply in_app_iff. right. left. reflexivity.
Qed.
Print Assumptions esp_replay_dropped.
