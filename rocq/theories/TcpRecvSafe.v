(** The receive path is memory safe against any peer: arbitrary sequence numbers. *)
From Coq Require Import Permutation.
From Verif Require Import Base ListUtil Seq SeqProps Queue QueueProofs HttpUrl TcpRecv TcpSack TcpRecvProofs TcpRecvInv.

Definition slot_safe (s : slot) : Prop := zlen (o_data s) = 1460 /\ (o_used s = true -> is_u32 (o_seq s) /\ 1 <= o_len s <= 1460).
(** [b] is [a] plus a signed distance. *)
Lemma signed_dist a b : is_u32 a -> is_u32 b -> exists e, - 2147483648 <= e < 2147483648 /\ b = sq a e /\ a = sq a 0.
Proof.
  unfold is_u32, sq, u32. intros A B. destruct (Z.lt_ge_cases (b - a) (- 2147483648)) as [C|C].
  - exists (b - a + 4294967296). repeat split; try lia. - destruct (Z.lt_ge_cases (b - a) 2147483648) as [D|D].
    + exists (b - a). repeat split; lia.
    + exists (b - a - 4294967296). repeat split; lia.
Qed.
Lemma sq_u32 isn x : is_u32 (sq isn x).
Proof. unfold is_u32, sq, u32. apply Z.mod_pos_bound. lia. Qed.

Lemma coalesce_safe s data seq : slot_safe s -> o_used s = true -> is_u32 seq -> 1 <= zlen data <= 1460 ->
  coalesce s data seq = Some None \/ exists s', coalesce s data seq = Some (Some s') /\ slot_safe s'.
Proof.
  intros (Hd & Hu) U HS HL. destruct (Hu U) as (HQ & HN). destruct (signed_dist (o_seq s) seq HQ HS) as (e & He & Es & Ea).
  set (a := o_seq s) in *.
  destruct (Z.lt_ge_cases (Z.abs e) 134217728) as [C|C].
  - rewrite Es. destruct (coalesce_ok a (fun _ _ => True) (- 134217728) 134217728 s data e) as [H|(s' & u & H & I1 & I2 & I3 & _)]; [lia| |exact U|lia|exact HL| |left; exact H|].
    + split; [exact Hd|]. intros _. exists 0. split; [exact Ea|]. split; [exact HN|]. split; [lia|]. intros i Hi.
      destruct (nth_error (o_data s) (Z.to_nat i)) as [b|] eqn:EN; [exists b; auto|]. apply nth_error_None in EN. unfold zlen in *. lia.
    + intros i b _. exact I.
    + right. exists s'. split; [exact H|]. destruct I1 as (D1 & D2). split; [exact D1|]. intros _. split; [rewrite I3; apply sq_u32|]. destruct (D2 I2) as (x & _ & LN & _). exact LN.
  - left. unfold coalesce. fold a. rewrite Es. replace (tcp_seq_inc a (o_len s)) with (sq a (o_len s)) by (rewrite Ea at 2; rewrite sq_inc by lia; f_equal; lia).
    rewrite sq_inc by lia. destruct (Z.lt_ge_cases e 0) as [N|N].
    + replace (tcp_seq_lt a (sq a (e + zlen data))) with false; [rewrite andb_false_r; reflexivity|]. rewrite Ea at 1. rewrite sq_ltb by lia. lia.
    + rewrite sq_ltb by lia. replace (e <? o_len s) with false by lia. reflexivity.
Qed.
Lemma store_scan_safe data seq : is_u32 seq -> 1 <= zlen data <= 1460 -> forall l i free, Forall slot_safe l ->
  match store_scan l i free data seq with
  | None => False
  | Some (Coalesced j s') => slot_safe s'
  | Some (Free f) => f = free \/ exists k, f = Some (i + k)%nat /\ (k < length l)%nat
  end.
Proof.
  intros HS HL. induction l as [|s l IH]; intros i free HF; cbn [store_scan]; [left; reflexivity|]. inversion HF as [|? ? Hs HF']; subst.
  destruct (o_used s) eqn:U; cbn [negb].
  - destruct (coalesce_safe s data seq Hs U HS HL) as [E|(s' & E & I1)]; rewrite E; cbn [obind]; [|exact I1].
    specialize (IH (S i) free HF'). destruct (store_scan l (S i) free data seq) as [[j s'|f]|]; [exact IH| |exact IH].
    destruct IH as [IH|(k & -> & N)]; [left; exact IH|right; exists (S k)]. split; [f_equal; lia|cbn; lia].
  - specialize (IH (S i) (match free with None => Some i | _ => free end) HF').
    destruct (store_scan l (S i) (match free with None => Some i | _ => free end) data seq) as [[j s'|f]|]; [exact IH| |exact IH].
    destruct IH as [IH|(k & -> & N)].
    + destruct free as [fr|]; [left; exact IH|]. right. exists O. split; [rewrite IH; f_equal; lia|cbn; lia].
    + right. exists (S k). split; [f_equal; lia|cbn; lia].
Qed.
Lemma take_first_len hit : forall l b r, take_first hit l = Some (b, r) -> length (b :: r) = length l.
Proof. intros l b r H. apply take_first_perm in H. destruct H as [H _]. symmetry. apply Permutation_length. exact H. Qed.
Lemma rebuild_len sl t n : (length (rebuild_sack sl t n) <= 4)%nat.
Proof.
  unfold rebuild_sack. set (l := firstn 4 (rev (merge_blocks tcp_seq_lt tcp_seq_leq (ooo_blocks sl)))). assert (L : (length l <= 4)%nat) by (unfold l; rewrite firstn_length; lia).
  destruct (n =? 0); [exact L|]. match goal with |- context [take_first ?h l] => destruct (take_first h l) as [[b r]|] eqn:E end; [|exact L]. apply take_first_len in E. lia.
Qed.

Definition Safe (cap : Z) (st : rxs) : Prop :=
  (exists l, QWF (rx_q st) l) /\ q_size (rx_q st) = cap + 1 /\ is_u32 (rx_ack st) /\ length (rx_ooo st) = 4%nat /\ Forall slot_safe (rx_ooo st) /\ (length (rx_sack st) <= 4)%nat.

Lemma insert_safe q l data seq : QWF q l -> exists q' r, queue_insert q data seq = Some (q', r) /\ (exists l', QWF q' l') /\ q_size q' = q_size q.
Proof.
  intros H. destruct (queue_insert_spec q l data seq H) as (q' & r & E & K). exists q', r. split; [exact E|].
  destruct (ins_abs (q_size q) (q_base q) l data seq) as [[b' l'] r']. destruct K as (_ & K1 & _ & K2). split; [exists l'; exact K1|exact K2].
Qed.
Lemma inc_u32 a n : is_u32 (tcp_seq_inc a n).
Proof. unfold is_u32, tcp_seq_inc, u32. destruct (_ <? n); apply Z.mod_pos_bound; lia. Qed.

Lemma consume_scan_safe ack : is_u32 ack -> forall sl q l, QWF q l -> Forall slot_safe sl ->
  match consume_scan q ack sl with
  | None => False
  | Some None => True
  | Some (Some (q', a', sl')) => (exists l', QWF q' l') /\ q_size q' = q_size q /\ is_u32 a' /\ Forall slot_safe sl' /\ length sl' = length sl /\
      ((nused sl' < nused sl)%nat \/ (nused sl' = nused sl /\ a' = ack /\ (nbelow a' sl' < nbelow a' sl)%nat))
  end.
Proof.
  intros HA. induction sl as [|s sl IH]; intros q l HQ HF; cbn [consume_scan]; [exact I|]. inversion HF as [|? ? Hs HF']; subst. specialize (IH q l HQ HF').
  assert (NEXT : match (do r <- consume_scan q ack sl; Some (match r with Some (q', a', l'') => Some (q', a', s :: l'') | None => None end)) with
    | None => False | Some None => True
    | Some (Some (q', a', sl')) => (exists l', QWF q' l') /\ q_size q' = q_size q /\ is_u32 a' /\ Forall slot_safe sl' /\ length sl' = length (s :: sl) /\
      ((nused sl' < nused (s :: sl))%nat \/ (nused sl' = nused (s :: sl) /\ a' = ack /\ (nbelow a' sl' < nbelow a' (s :: sl))%nat)) end).
  { destruct (consume_scan q ack sl) as [[[[q' a'] sl']|]|]; cbn [obind]; [|exact I|exact IH].
    destruct IH as (I1 & I2 & I3 & I4 & I5 & I6). split; [exact I1|]. split; [exact I2|]. split; [exact I3|]. split; [constructor; assumption|]. split; [cbn; lia|].
    cbn [nused nbelow]. destruct I6 as [I6|(I6 & I7 & I8)]; [left; lia|right; repeat split; [lia|exact I7|lia]]. }
  destruct (o_used s) eqn:EU; cbn [negb]; [|exact NEXT]. destruct Hs as (Hd & Hu). destruct (Hu EU) as (HQs & HN).
  destruct (tcp_seq_lt (o_seq s) ack) eqn:E1.
  - destruct (signed_dist (o_seq s) ack HQs HA) as (e & He & Es & Ea). set (a := o_seq s) in *.
    replace (tcp_seq_inc a (o_len s)) with (sq a (o_len s)) by (rewrite Ea at 2; rewrite sq_inc by lia; f_equal; lia).
    destruct (tcp_seq_leq (sq a (o_len s)) ack) eqn:E2.
    + split; [exists l; exact HQ|]. split; [reflexivity|]. split; [exact HA|]. split; [constructor; [split; [exact Hd|cbn; discriminate]|exact HF']|]. split; [reflexivity|]. left. cbn [nused o_used]. rewrite EU. lia.
    + assert (EP : 0 < e < o_len s).
      { destruct (Z.eq_dec e (- 2147483648)) as [-> |NE].
        - exfalso. rewrite Es in E2. replace (sq a (-2147483648)) with (sq a 2147483648) in E2 by (unfold sq, u32; lia). rewrite sq_leqb in E2 by lia. lia.
        - rewrite Es in E1. rewrite Ea in E1 at 1. rewrite sq_ltb in E1 by lia. rewrite Es, sq_leqb in E2 by lia. lia. }
      assert (DF : tcp_seq_diff ack a = e) by (rewrite Es; rewrite Ea at 2; rewrite sq_diffz by lia; lia). rewrite DF.
      replace (u32 e) with e by (unfold u32; rewrite Z.mod_small; lia). replace (u32 (o_len s - e)) with (o_len s - e) by (unfold u32; rewrite Z.mod_small; lia).
      destruct (mread_in (o_data s) e (o_len s - e)) as (tl & ET); [lia..|]. rewrite ET. cbn [obind]. pose proof (mread_some _ _ _ _ ET) as (_ & _ & _ & LT).
      destruct (mwrite_in (o_data s) 0 tl) as (buf & EW); [lia|lia|]. rewrite EW. cbn [obind]. pose proof (mwrite_some _ _ _ _ EW) as (_ & _ & LW).
      split; [exists l; exact HQ|]. split; [reflexivity|]. split; [exact HA|]. split; [constructor; [split; [cbn; lia|cbn [o_seq o_len]; intros _; split; [exact HA|lia]]|exact HF']|].
      split; [reflexivity|]. right. cbn [nused nbelow o_used o_seq]. rewrite EU. split; [reflexivity|]. split; [reflexivity|]. fold a. rewrite E1. cbn [andb].
      assert (Q1 : tcp_seq_lt ack ack = false) by (unfold tcp_seq_lt; rewrite Z.eqb_refl; reflexivity). rewrite Q1. lia.
  - destruct (o_seq s =? ack) eqn:E2; [|exact NEXT].
    destruct (mread_in (o_data s) 0 (o_len s)) as (bs & ER); [lia..|]. rewrite ER. cbn [obind].
    destruct (insert_safe q l bs (o_seq s) HQ) as (q' & r & EI & I1 & I2). rewrite EI. cbn [obind]. destruct (r =? 0); [|exact NEXT].
    split; [exact I1|]. split; [exact I2|]. split; [apply inc_u32|]. split; [constructor; [split; [exact Hd|cbn; discriminate]|exact HF']|]. split; [reflexivity|]. left. cbn [nused o_used]. rewrite EU. lia.
Qed.
Lemma consume_loop_safe : forall fuel q l ack sl, is_u32 ack -> QWF q l -> Forall slot_safe sl -> length sl = 4%nat -> (5 * nused sl + nbelow ack sl < fuel)%nat ->
  exists q' a' sl', consume_loop fuel q ack sl = Some (q', a', sl') /\ (exists l', QWF q' l') /\ q_size q' = q_size q /\ is_u32 a' /\ Forall slot_safe sl' /\ length sl' = 4%nat.
Proof.
  induction fuel as [|fuel IH]; intros q l ack sl HA HQ HF HL HM; [lia|]. cbn [consume_loop]. pose proof (consume_scan_safe ack HA sl q l HQ HF) as HS.
  destruct (consume_scan q ack sl) as [[[[q' a'] sl']|]|]; cbn [obind]; [| |contradiction].
  - destruct HS as ((l' & S1) & S2 & S3 & S4 & S5 & S6).
    destruct (IH q' l' a' sl' S3 S1 S4 ltac:(lia)) as (q2 & a2 & sl2 & E & R1 & R2 & R3 & R4 & R5).
    { pose proof (nbelow_le a' sl'). pose proof (nused_le sl'). pose proof (nused_le sl). pose proof (nbelow_le ack sl). destruct S6 as [S6|(S6 & -> & S7)]; lia. }
    exists q2, a2, sl2. split; [exact E|]. split; [exact R1|]. split; [congruence|]. auto.
  - exists q, ack, sl. split; [reflexivity|]. split; [exists l; exact HQ|]. auto.
Qed.

Lemma one_ack (a : Z * list (Z * Z)) : (length (snd a) <= 4)%nat -> Forall (fun a => (length (snd a) <= 4)%nat) [a].
Proof. intros H. constructor; [exact H|constructor]. Qed.
Lemma tcp_recv_safe cap st seq data : Safe cap st -> is_u32 seq ->
  exists st' acks, tcp_recv st seq data = Some (st', acks) /\ Safe cap st' /\ Forall (fun a => (length (snd a) <= 4)%nat) acks.
Proof.
  intros HS HQ. pose proof HS as ((l & S1) & S2 & S3 & S4 & S5 & S6). unfold tcp_recv. pose proof (zlen_nonneg data) as ZN.
  destruct (zlen data =? 0) eqn:E0; [exists st, []; split; [reflexivity|]; split; [exact HS|constructor]|].
  set (consumed := if tcp_seq_lt seq (rx_ack st) then u32 (tcp_seq_diff (rx_ack st) seq) else 0).
  assert (CN : 0 <= consumed) by (unfold consumed; destruct (tcp_seq_lt seq (rx_ack st)); [unfold u32; apply Z.mod_pos_bound|]; lia).
  destruct (tcp_seq_lt seq (rx_ack st) && (zlen data <=? consumed)) eqn:E1; [exists st, [ack_of st]; split; [reflexivity|]; split; [exact HS|apply one_ack; exact S6]|].
  assert (CL : consumed <= zlen data) by (unfold consumed in *; destruct (tcp_seq_lt seq (rx_ack st)); cbn [andb] in E1; lia).
  destruct (mread_in data consumed (zlen data - consumed)) as (d2 & ER); [lia..|]. rewrite ER. cbn [obind].
  set (sq' := if tcp_seq_lt seq (rx_ack st) then tcp_seq_inc seq consumed else seq). assert (HQ' : is_u32 sq') by (unfold sq'; destruct (tcp_seq_lt seq (rx_ack st)); [apply inc_u32|exact HQ]).
  destruct (sq' =? rx_ack st) eqn:E2.
  - destruct (insert_safe (rx_q st) l d2 sq' S1) as (q' & r & EI & (l' & I1) & I2). rewrite EI. cbn [obind]. destruct (r <? 0) eqn:E3.
    + eexists _, _. split; [reflexivity|]. split; [|apply one_ack; exact S6]. split; [exists l'; exact I1|]. cbn [rx_q rx_ack rx_ooo rx_sack]. split; [congruence|]. auto.
    + unfold tcp_consume_ooo. cbn [rx_q rx_ack rx_ooo]. destruct (consume_loop_safe 40 q' l' (tcp_seq_inc sq' (zlen d2)) (rx_ooo st) (inc_u32 _ _) I1 S5 S4) as (q2 & a2 & sl2 & E & R1 & R2 & R3 & R4 & R5).
      { pose proof (nused_le (rx_ooo st)). pose proof (nbelow_le (tcp_seq_inc sq' (zlen d2)) (rx_ooo st)). lia. }
      rewrite E. cbn [obind fst snd]. eexists _, _. split; [reflexivity|]. split; [|apply one_ack; apply rebuild_len]. split; [exact R1|]. cbn [rx_q rx_ack rx_ooo rx_sack]. split; [congruence|]. repeat (split; [assumption|]). apply rebuild_len.
  - destruct (tcp_seq_lt (rx_ack st) sq'); [|exists st, []; split; [reflexivity|]; split; [exact HS|constructor]].
    unfold tcp_store_ooo, MSS_MAX. destruct ((zlen d2 =? 0) || (1460 <? zlen d2)) eqn:E4.
    { cbn [obind]. exists st, [ack_of st]. split; [reflexivity|]. split; [exact HS|apply one_ack; exact S6]. }
    pose proof (zlen_nonneg d2). pose proof (store_scan_safe d2 sq' HQ' ltac:(lia) (rx_ooo st) 0 None S5) as SC.
    destruct (store_scan (rx_ooo st) 0 None d2 sq') as [[j s'|f]|]; cbn [obind]; [| |contradiction].
    + eexists _, _. split; [reflexivity|]. split; [|apply one_ack; apply rebuild_len]. split; [exists l; exact S1|]. cbn [rx_q rx_ack rx_ooo rx_sack]. split; [exact S2|]. split; [exact S3|].
      split; [rewrite set_nth_length; exact S4|]. split; [apply Forall_set_nth; assumption|apply rebuild_len].
    + destruct SC as [-> |(k & -> & K)]; [cbn [obind]; exists st, [ack_of st]; split; [reflexivity|]; split; [exact HS|apply one_ack; exact S6]|]. cbn [Nat.add].
      destruct (nth_error (rx_ooo st) k) as [old|] eqn:EN; [|apply nth_error_None in EN; lia]. cbn [obind].
      pose proof S5 as S5'. rewrite Forall_forall in S5'. destruct (S5' old (nth_error_In _ _ EN)) as (Hd & _).
      destruct (mwrite_in (o_data old) 0 d2) as (buf & EW); [lia|lia|]. rewrite EW. cbn [obind]. pose proof (mwrite_some _ _ _ _ EW) as (_ & _ & LW).
      eexists _, _. split; [reflexivity|]. split; [|apply one_ack; apply rebuild_len]. split; [exists l; exact S1|]. cbn [rx_q rx_ack rx_ooo rx_sack]. split; [exact S2|]. split; [exact S3|].
      split; [rewrite set_nth_length; exact S4|]. split; [|apply rebuild_len]. apply Forall_set_nth; [exact S5|]. split; [cbn; lia|]. cbn [o_seq o_len]. intros _. split; [exact HQ'|lia].
Qed.
Lemma seg_input_safe cap st seq data fin : Safe cap st -> is_u32 seq ->
  exists st' acks, seg_input st seq data fin = Some (st', acks) /\ Safe cap st' /\ Forall (fun a => (length (snd a) <= 4)%nat) acks.
Proof.
  intros HS HQ. unfold seg_input.
  assert (A0 : (length (snd (ack_of st)) <= 4)%nat) by apply HS.
  destruct (negb (tcp_segment_acceptable (rx_ack st) (queue_space (rx_q st)) seq (zlen data + (if fin then 1 else 0)))); [exists st, [ack_of st]; split; [reflexivity|]; split; [exact HS|apply one_ack; exact A0]|].
  assert (D : exists st1 acks1, (if 0 <? zlen data then tcp_recv st seq data else Some (st, [])) = Some (st1, acks1) /\ Safe cap st1 /\ Forall (fun a => (length (snd a) <= 4)%nat) acks1).
  { destruct (0 <? zlen data); [apply tcp_recv_safe; assumption|]. exists st, []. split; [reflexivity|]. split; [exact HS|constructor]. }
  destruct D as (st1 & acks1 & -> & HS1 & F1). cbn [obind]. destruct fin; [|exists st1, acks1; auto].
  destruct (((zlen data =? 0) && negb (rx_ack st1 =? seq)) || ((0 <? zlen data) && negb (rx_ack st1 =? tcp_seq_inc seq (zlen data)))).
  - eexists _, _. split; [reflexivity|]. split; [exact HS1|]. apply Forall_app. split; [exact F1|]. apply one_ack. apply HS1.
  - eexists _, _. split; [reflexivity|]. destruct HS1 as (S1 & S2 & S3 & S4 & S5 & S6). split.
    + split; [exact S1|]. cbn [rx_q rx_ack rx_ooo rx_sack]. split; [exact S2|]. split; [destruct (0 <? zlen data); apply inc_u32|]. auto.
    + apply Forall_app. split; [exact F1|]. apply one_ack. exact S6.
Qed.
Lemma sock_recv_safe cap st shift len : Safe cap st -> 0 <= len < 4294967296 ->
  exists st' bs acks, sock_recv st shift len = Some (st', (bs, acks)) /\ Safe cap st' /\ Forall (fun a => (length (snd a) <= 4)%nat) acks /\ zlen bs <= len.
Proof.
  intros ((l & S1) & S2 & S3 & S4 & S5 & S6) HL. unfold sock_recv. destruct (queue_pop_spec (rx_q st) l len S1 ltac:(lia)) as (q' & bs & r & E & H). rewrite E. cbn [obind fst snd].
  assert (G : (exists l', QWF q' l') /\ q_size q' = cap + 1 /\ zlen bs <= len).
  { destruct (zlen l =? 0); [destruct H as (-> & -> & _); split; [exists l; exact S1|]; change (zlen (@nil Z)) with 0; split; [exact S2|lia]|]. destruct H as (-> & -> & HQ & _ & HS).
    split; [eexists; exact HQ|]. split; [congruence|]. pose proof (zlen_nonneg l). unfold zlen. rewrite firstn_length. unfold zlen in *. lia. }
  destruct G as (G1 & G2 & G3). eexists _, _, _. split; [reflexivity|]. split; [|split; [|exact G3]].
  - split; [exact G1|]. split; [exact G2|]. auto.
  - destruct ((0 <? r) && (tcp_adv_win (queue_space (rx_q st)) shift <? tcp_adv_win (queue_space q') shift)); [apply one_ack; exact S6|constructor].
Qed.
