(** C85: DNS lookups end. The client is Dns.v (/repo/src/wolfip.c:10881-11157). *)
From Verif Require Import Base Bits ListUtil Arp DnsSpec Dns DnsNameProps DnsProps.

(** Every timer the client asks for during the operation is granted. *)
Definition timers_ok (o : dop) : Prop :=
  match o with DLookup _ _ _ e => e_timer e = true | DPtr _ _ _ e => e_timer e = true | DTimeout _ t => t = true | _ => True end.
(** A network that works: server configured, socket, connect, send and timer succeed. *)
Definition works (e : denv) : Prop := e_server e = true /\ e_sock e = true /\ e_conn e = true /\ e_send e = true.
(** A text name that can be asked for. *)
Definition askable (name : list Z) : Prop := zlen name <= 255 /\ exists ls, text_of ls name /\ Forall label_ok ls /\ zlen (wire ls) <= 256.

(** idle, or waiting with an armed timer and at most three repetitions behind *)
Definition alive (n : Z) (s : dnsc) : Prop := q_id s = 0 \/ q_timer s = true /\ n <= q_retry s <= 3.
Lemma abort_alive n s : alive n (dns_abort s).
Proof. left. reflexivity. Qed.
Lemma send_alive s name ty rnd e s' c o : dns_send_query s name ty rnd e = (s', c, o) -> e_timer e = true -> q_id s = 0 -> alive 0 s'.
Proof.
  unfold dns_send_query. intros H T I. rewrite I in H. cbn [Z.eqb negb] in H.
  destruct (255 <? zlen name); [injection H as <- _ _; left; exact I|]. destruct (negb (e_server e)); [injection H as <- _ _; left; exact I|].
  destruct (negb (e_sock e)); [injection H as <- _ _; left; exact I|]. destruct (dns_encode_name name); [|injection H as <- _ _; apply abort_alive].
  destruct (negb (e_conn e)); [injection H as <- _ _; apply abort_alive|]. destruct (negb (e_send e)); [injection H as <- _ _; apply abort_alive|].
  injection H as <- _ _. right. cbn. split; [exact T|lia].
Qed.
Lemma answers_alive p : forall fuel s pos s' o, dns_answers fuel s p pos = Some (s', o) -> s' = s \/ s' = dns_init.
Proof.
  induction fuel as [|fuel IH]; intros s pos s' o H; cbn [dns_answers] in H; [injection H as <- _; auto|].
  destruct (dns_skip_name p pos) as [[q|]|]; cbn [obind] in H; [|injection H as <- _; auto|discriminate].
  destruct (zlen p <? q + 10); [injection H as <- _; auto|]. destruct (mread p q 10) as [rr|]; cbn [obind] in H; [|discriminate]. cbv zeta in H.
  destruct (zlen p <? q + 10 + rd16 rr 8); [injection H as <- _; auto|].
  match type of H with (if ?g then _ else _) = _ => destruct g end.
  { destruct (mread p (q + 10) 4); cbn [obind] in H; [|discriminate]. injection H as <- _. auto. }
  match type of H with (if ?g then _ else _) = _ => destruct g end; [|eapply IH; exact H].
  destruct (dns_copy_name p (q + 10) (repeat 0 256)) as [[out|]|]; cbn [obind] in H; [injection H as <- _; auto|eapply IH; exact H|discriminate].
Qed.
Lemma rx_alive s p s' o : dns_rx s p = Some (s', o) -> s' = s \/ s' = dns_init.
Proof.
  unfold dns_rx. intros H. destruct (zlen p <? 12); [injection H as <- _; auto|]. destruct (mread p 0 12) as [h|]; cbn [obind] in H; [|discriminate]. cbv zeta in H.
  do 5 (match type of H with (if ?g then _ else _) = _ => destruct g; [injection H as <- _; auto|] end).
  destruct (dns_skip_name p 12) as [[q|]|]; cbn [obind] in H; [|injection H as <- _; auto|discriminate].
  destruct (zlen p <? q + 4); [injection H as <- _; auto|]. destruct (dns_question_matches (q_buf s) p 12) as [b|]; cbn [obind] in H; [|discriminate].
  destruct (negb b); [injection H as <- _; auto|]. eapply answers_alive; exact H.
Qed.
Lemma timeout_alive n s b s' o : dns_timeout s b true = (s', o) -> alive n s -> alive (n + 1) s' /\ Forall (fun d => match d with Sent _ => True | _ => False end) o.
Proof.
  unfold dns_timeout. intros H [I|(T & R)].
  - destruct (negb (q_timer s)); [injection H as <- <-; split; [left; exact I|constructor]|]. cbn [q_id] in H. rewrite I in H. cbn [Z.eqb] in H. injection H as <- <-. split; [left; reflexivity || exact I|constructor].
  - rewrite T in H. cbn [negb q_id q_retry q_buf] in H. destruct (q_id s =? 0) eqn:E; [injection H as <- <-; split; [left; cbn; lia|constructor]|].
    destruct (Z.ltb_spec (q_retry s) 3); [|injection H as <- <-; split; [apply abort_alive|constructor]].
    destruct (negb b || (zlen (q_buf s) =? 0)); injection H as <- <-; [split; [apply abort_alive|constructor]|]. split; [right; cbn; split; [reflexivity|lia]|repeat constructor].
Qed.
Lemma step_alive s o s' r : dstep s o = Some (s', r) -> timers_ok o -> alive 0 s -> alive 0 s'.
Proof.
  intros H T A. destruct o as [n cb rnd e|ip cb rnd e|p| |b t]; cbn [dstep timers_ok] in *.
  - destruct (nslookup s n cb rnd e) as [[s1 c] out] eqn:E. injection H as <- _. unfold nslookup in E. destruct (Z.eqb_spec (q_id s) 0) as [I|]; cbn [negb] in E; [|injection E as <- _ _; exact A].
    eapply send_alive; [exact E|exact T|exact I].
  - destruct (ptr_lookup s ip cb rnd e) as [[s1 c] out] eqn:E. injection H as <- _. unfold ptr_lookup in E. destruct (dns_format_ptr_name ip); [|injection E as <- _ _; exact A].
    destruct (Z.eqb_spec (q_id s) 0) as [I|]; cbn [negb] in E; [|injection E as <- _ _; exact A]. eapply send_alive; [exact E|exact T|exact I].
  - destruct (dns_rx s p) as [[s1 out]|] eqn:E; cbn [obind] in H; [|discriminate]. injection H as <- _. destruct (rx_alive _ _ _ _ E) as [-> | ->]; [exact A|apply (abort_alive 0 s)].
  - injection H as <- _. apply abort_alive.
  - subst t. destruct (dns_timeout s b true) as [s1 out] eqn:E. injection H as <- _. destruct (timeout_alive 0 _ _ _ _ E A) as ([X|(X1 & X2)] & _); [left; exact X|right; split; [exact X1|lia]].
Qed.
Lemma run_alive : forall os s s' rs, drun s os = Some (s', rs) -> Forall timers_ok os -> alive 0 s -> alive 0 s'.
Proof.
  induction os as [|o os IH]; intros s s' rs H F A; cbn [drun] in H; [injection H as <- _; exact A|]. inversion F; subst.
  destruct (dstep s o) as [[s1 r]|] eqn:E; cbn [obind] in H; [|discriminate]. destruct (drun s1 os) as [[s2 rs2]|] eqn:E2; cbn [obind] in H; [|discriminate]. injection H as <- _.
  eapply IH; [exact E2|assumption|]. eapply step_alive; eauto.
Qed.
Lemma run_app : forall a b s s1 r1, drun s a = Some (s1, r1) -> drun s (a ++ b) = match drun s1 b with Some (s2, r2) => Some (s2, r1 ++ r2) | None => None end.
Proof.
  induction a as [|o a IH]; intros b s s1 r1 H; cbn [drun app] in *; [injection H as <- <-; destruct (drun s b) as [[? ?]|]; reflexivity|].
  destruct (dstep s o) as [[s2 r]|]; cbn [obind] in *; [|discriminate]. destruct (drun s2 a) as [[s3 r3]|] eqn:E; cbn [obind] in H; [|discriminate]. injection H as <- <-.
  rewrite (IH b _ _ _ E). destruct (drun s3 b) as [[? ?]|]; reflexivity.
Qed.
Lemma timeouts_run : forall bs s n, alive n s -> exists s' rs, drun s (map (fun b => DTimeout b true) bs) = Some (s', rs) /\ alive (n + Z.of_nat (length bs)) s' /\
  Forall (fun r => fst r = RNone /\ calls r = 0%nat) rs.
Proof.
  induction bs as [|b bs IH]; intros s n A; cbn [map drun length dstep]; [exists s, []; split; [reflexivity|]; split; [replace (n + Z.of_nat 0) with n by lia; exact A|constructor]|].
  destruct (dns_timeout s b true) as [s1 out] eqn:E. cbn [obind]. destruct (timeout_alive n _ _ _ _ E A) as (A1 & F). destruct (IH s1 (n + 1) A1) as (s2 & rs & E2 & A2 & F2). rewrite E2. cbn [obind].
  exists s2, ((RNone, out) :: rs). split; [reflexivity|]. split; [replace (n + Z.of_nat (S (length bs))) with (n + 1 + Z.of_nat (length bs)) by lia; exact A2|]. constructor; [|exact F2].
  split; [reflexivity|]. unfold calls. cbn [snd]. clear - F. induction F as [|d l P F IH]; [reflexivity|]. destruct d; try contradiction. cbn. exact IH.
Qed.

(** C85.  No lookup is outstanding for ever.  Whatever the history of lookups, received
    datagrams, errors and timer expiries, provided the timers the client asked for were
    granted: after four more expiries of its timer (whether or not the repetitions could be
    sent), which call nobody back, the client takes the next lookup of any name that can be
    asked for: it returns 0 and sends one query. *)
Theorem dns_lookups_end : forall os s rs bs name cb rnd e, Forall dop_ok os -> Forall timers_ok os -> drun dns_init os = Some (s, rs) ->
  (4 <= length bs)%nat -> askable name -> works e ->
  exists s' ts q, drun s (map (fun b => DTimeout b true) bs ++ [DLookup name cb rnd e]) = Some (s', ts ++ [(RRet 0, [Sent q])]) /\
    Forall (fun r => fst r = RNone /\ calls r = 0%nat) ts.
Proof.
  intros os s rs bs name cb rnd e _ HT HR HL (L & ls & TX & FL & LW) (W1 & W2 & W3 & W4).
  pose proof (run_alive _ _ _ _ HR HT (or_introl eq_refl)) as A. destruct (timeouts_run bs s 0 A) as (s1 & ts & E & A1 & F). rewrite (run_app _ _ _ _ _ E).
  destruct A1 as [I|(_ & R)]; [|lia]. cbn [drun dstep]. unfold nslookup. rewrite I. cbn [Z.eqb negb]. unfold dns_send_query.
  assert (EN : dns_encode_name name = Some (wire ls)) by (apply dns_encode_exact; exists ls; auto).
  destruct (Z.ltb_spec 255 (zlen name)); [lia|]. rewrite W1, W2, W3, W4, EN. cbn [negb q_id]. cbn [Z.eqb negb]. cbv zeta. cbn [obind].
  do 3 eexists. split; [reflexivity|exact F].
Qed.

(** C85, finding.  The timers must be granted: when arming one fails (the timer heap is
    full) the query stays outstanding, and as long as the answer does not come every
    further lookup is refused, however often the application asks. *)
Theorem dns_lookups_end_without_timer_refuted : ~ (forall os s rs name cb rnd e, Forall dop_ok os -> drun dns_init os = Some (s, rs) -> askable name -> works e ->
  exists n s' ts q, drun s (repeat (DTimeout true true) n ++ [DLookup name cb rnd e]) = Some (s', ts ++ [(RRet 0, [Sent q])])).
Proof.
  intros H. set (e0 := {| e_server := true; e_sock := true; e_conn := true; e_send := true; e_timer := false |}).
  destruct (drun dns_init [DLookup [97] 5 258 e0]) as [[s rs]|] eqn:E; [|vm_compute in E; discriminate].
  destruct (H [DLookup [97] 5 258 e0] s rs [97] 6 9 e0) as (n & s' & ts & q & X).
  - repeat constructor; lia.
  - exact E.
  - split; [vm_compute; discriminate|]. exists [[97]]. split; [left; reflexivity|]. split; [|vm_compute; discriminate]. repeat constructor; [vm_compute; discriminate|vm_compute; discriminate|]. intros [K|[]]. discriminate.
  - repeat split.
  - vm_compute in E. injection E as <- _.
    assert (G : forall n, exists r, drun {| q_id := 258; q_type := 1; q_buf := [1; 2; 1; 0; 0; 1; 0; 0; 0; 0; 0; 0; 1; 97; 0; 0; 1; 0; 1]; q_retry := 0; q_timer := false; cb_a := Some 5; cb_ptr := None |}
        (repeat (DTimeout true true) n ++ [DLookup [97] 6 9 e0]) = Some ({| q_id := 258; q_type := 1; q_buf := [1; 2; 1; 0; 0; 1; 0; 0; 0; 0; 0; 0; 1; 97; 0; 0; 1; 0; 1]; q_retry := 0; q_timer := false; cb_a := Some 5; cb_ptr := None |}, r ++ [(RRet (-16), [])])).
    { clear. induction n as [|n (r & IH)]; [exists []; vm_compute; reflexivity|]. cbn [repeat app drun]. cbn [dstep dns_timeout q_timer negb]. unfold dns_timeout. cbn [q_timer negb obind].
      rewrite IH. cbn [obind]. eexists (_ :: r). reflexivity. }
    destruct (G n) as (r & G'). rewrite G' in X. injection X as _ X. apply app_inj_tail in X as (_ & X). discriminate.
Qed.

(** C85, finding.  A message that carries no question at all can end a lookup: twelve bytes
    with the right id, the response, recursion and truncation bits.  The true answer that
    follows is not delivered.  (RFC 5452 section 9.1 asks to compare the question before a
    response is used.) *)
Theorem dns_needs_question_to_end_refuted : ~ (forall name cb rnd e junk p s rs, askable name -> works e -> dop_ok (DLookup name cb rnd e) -> Forall byte junk -> Forall byte p -> zlen junk = 12 ->
  drun dns_init [DLookup name cb rnd e; DRx p] = Some (s, rs) -> total calls rs = 1%nat ->
  exists s' rs', drun dns_init [DLookup name cb rnd e; DRx junk; DRx p] = Some (s', rs') /\ total calls rs' = 1%nat).
Proof.
  intros H. destruct (drun dns_init [DLookup [97;46;98] 5 258 env_ok; DRx (ans 65)]) as [[s rs]|] eqn:E; [|vm_compute in E; discriminate].
  destruct (H [97;46;98] 5 258 env_ok [1;2; 131;128; 0;0; 0;0; 0;0; 0;0] (ans 65) s rs) as (s' & rs' & X & Y).
  - split; [vm_compute; discriminate|]. exists [[97]; [98]]. split; [left; reflexivity|]. split; [|vm_compute; discriminate]. repeat constructor; try (vm_compute; discriminate); intros [K|[]]; discriminate.
  - repeat split.
  - split; [repeat constructor|]; lia.
  - repeat constructor; unfold byte; lia.
  - repeat constructor; unfold byte; lia.
  - reflexivity.
  - exact E.
  - vm_compute in E. injection E as <- <-. reflexivity.
  - vm_compute in X. injection X as <- <-. vm_compute in Y. discriminate.
Qed.

(** The true answer to a reverse lookup. *)
Lemma rx_accepted s q p : DRep s (Some q) -> Forall byte p -> answers q p ->
  dns_rx s p = dns_answers (Z.to_nat (w16 p 6)) s p (12 + zlen (question q)).
Proof.
  intros HR BP (A1 & A2 & A3 & A4 & A5 & A6 & A7 & A8 & A9). destruct HR as (I & J & FL & LW & B & RT & LF & TY).
  assert (LQ : zlen (question q) = zlen (wire (o_name q)) + 4) by (unfold question; rewrite zlen_app; reflexivity). pose proof (zlen_nonneg (wire (o_name q))).
  unfold dns_rx. destruct (Z.ltb_spec (zlen p) 12); [lia|]. rewrite mread_sub by lia. cbn [obind]. rewrite !rd16_sub by lia. rewrite !Z.add_0_l.
  rewrite A1, I, Z.eqb_refl. cbn [negb]. pose proof (w16_byte p 2 BP).
  assert (F1 : Z.land (w16 p 2) 33024 = 33024).
  { apply Z.bits_inj'. intros n Hn. rewrite Z.land_spec. destruct (Z.eq_dec n 15) as [-> |]; [rewrite A2; reflexivity|]. destruct (Z.eq_dec n 8) as [-> |]; [rewrite A3; reflexivity|].
    assert (TB : Z.testbit 33024 n = false); [|rewrite TB, andb_false_r; reflexivity]. change 33024 with (2 ^ 15 + 2 ^ 8). rewrite <- (lor_add (2 ^ 15) (2 ^ 8) 9) by (cbn; lia || reflexivity).
    rewrite Z.lor_spec, !Z.pow2_bits_false by lia. reflexivity. }
  assert (F2 : Z.land (w16 p 2) 512 = 0).
  { change 512 with (2 ^ 9). apply Z.eqb_eq. rewrite land_pow2_zero by lia. rewrite A4. reflexivity. }
  assert (F3 : Z.land (w16 p 2) 15 = 0) by (change 15 with (Z.ones 4); rewrite Z.land_ones by lia; exact A5).
  rewrite F1, F2, F3, A6. change (33024 =? 33024) with true. change (0 =? 0) with true. change (1 =? 1) with true. cbn [negb].
  assert (NE : name_end p 12 (12 + zlen (wire (o_name q)))).
  { destruct (split_at p 12 ltac:(lia)) as (a & b & -> & La & Lb). destruct (split_at b (zlen (wire (o_name q))) ltac:(rewrite zlen_app in *; lia)) as (w & b' & -> & Lw & Lb').
    rewrite <- Lw in A8. rewrite <- La in A8. rewrite sub_app in A8. rewrite <- La. apply echoed_end; auto. apply Forall_app in BP as (_ & BP). apply Forall_app in BP as (BP & _). exact BP. }
  rewrite (skip_exact_end p 12 _ BP ltac:(lia) NE). cbn [obind]. destruct (Z.ltb_spec (zlen p) (12 + zlen (wire (o_name q)) + 4)); [lia|]. rewrite B.
  assert (M : dns_question_matches (query_msg q) p 12 = Some true).
  { unfold dns_question_matches.
    assert (LM : zlen (query_msg q) = 16 + zlen (wire (o_name q))) by (unfold query_msg; rewrite zlen_app, LQ; change (zlen [o_id q / 256; o_id q mod 256; 1; 0; 0; 1; 0; 0; 0; 0; 0; 0]) with 12; lia).
    rewrite LM. replace (16 + zlen (wire (o_name q)) - 12 - 4) with (zlen (wire (o_name q))) by lia. replace (16 + zlen (wire (o_name q)) - 12) with (zlen (wire (o_name q)) + 4) by lia.
    assert (LP : 1 <= zlen (wire (o_name q))) by (destruct (o_name q); cbn [wire]; rewrite zlen_cons; [change (zlen (@nil Z)) with 0; lia|pose proof (zlen_nonneg (l ++ wire l0)); lia]).
    destruct (Z.leb_spec (zlen (wire (o_name q))) 0); [lia|]. destruct (Z.ltb_spec 12 0); [lia|]. cbn [orb]. destruct (Z.ltb_spec (zlen p - 12) (zlen (wire (o_name q)) + 4)); [lia|].
    rewrite mread_sub by lia. cbn [obind]. unfold query_msg, question.
    rewrite (mread_eq _ [o_id q / 256; o_id q mod 256; 1; 0; 0; 1; 0; 0; 0; 0; 0; 0] (wire (o_name q)) [0; o_qtype q; 0; 1]) by reflexivity. cbn [obind].
    rewrite (proj2 (name_eq_spec _ _) A8). cbn [negb]. rewrite mread_sub by lia. cbn [obind].
    rewrite (mread_eq _ ([o_id q / 256; o_id q mod 256; 1; 0; 0; 1; 0; 0; 0; 0; 0; 0] ++ wire (o_name q)) [0; o_qtype q; 0; 1] []).
    2:{ rewrite app_nil_r, <- app_assoc. reflexivity. } 2:{ rewrite zlen_app. reflexivity. } 2:{ reflexivity. }
    cbn [obind]. f_equal. apply bytes_eq_spec. exact A9. }
  rewrite M. cbn [obind negb]. rewrite LQ. f_equal. lia.
Qed.
Lemma dname_det p : forall pos ls, dname p pos ls -> forall ls', dname p pos ls' -> ls = ls'.
Proof.
  induction 1 as [pos R Z0|pos ls R L1 L2 D IH|pos ls R1 R2 L1 L2 D IH]; intros ls' D'; inversion D'; subst; try lia; [reflexivity| |].
  - f_equal. apply IH. assumption.
  - apply IH. assumption.
Qed.
(** [first_ptr p pos n r ls]: of the [n] records from [pos], the first of type PTR and class
    IN that holds a readable name (at most 255 bytes of text) has its fixed part at [r] and
    holds the name [ls]. *)
Definition is_ptr (p : list Z) (r : Z) (ls : list (list Z)) : Prop := w16 p r = 12 /\ w16 p (r + 2) = 1 /\ dname p (r + 10) ls /\ zlen (dotted ls) < 256.
Inductive first_ptr (p : list Z) : Z -> Z -> Z -> list (list Z) -> Prop :=
| FP_here pos n r ls : 0 < n -> name_end p pos r -> r + 10 + w16 p (r + 8) <= zlen p -> is_ptr p r ls -> first_ptr p pos n r ls
| FP_next pos n r0 r ls : 0 < n -> name_end p pos r0 -> r0 + 10 + w16 p (r0 + 8) <= zlen p -> (forall l0, ~ is_ptr p r0 l0) ->
    first_ptr p (r0 + 10 + w16 p (r0 + 8)) (n - 1) r ls -> first_ptr p pos n r ls.
Lemma ptr_deliver s p : Forall byte p -> q_type s = 2 -> forall pos n r ls, first_ptr p pos n r ls -> 0 < pos ->
  exists rest, dns_answers (Z.to_nat n) s p pos = Some (dns_init, match cb_ptr s with Some cb => [CallPtr cb (dotted ls ++ [0] ++ rest)] | None => [] end).
Proof.
  intros BP T. induction 1 as [pos n r ls HN NE L (T1 & T2 & D & LD)|pos n r0 r ls HN NE L NM _ IH]; intros HP; (destruct (Z.to_nat n) as [|k] eqn:EK; [lia|]); cbn [dns_answers];
    rewrite (skip_exact_end _ _ _ BP HP NE); cbn [obind]; pose proof (name_end_range _ _ _ NE) as RG.
  - pose proof (w16_byte p (r + 8) BP). destruct (Z.ltb_spec (zlen p) (r + 10)); [lia|]. rewrite mread_sub by lia. cbn [obind]. rewrite !rd16_sub by lia. rewrite Z.add_0_r, T1, T2, T.
    destruct (Z.ltb_spec (zlen p) (r + 10 + w16 p (r + 8))); [lia|]. change (2 =? 1) with false. change ((2 =? 2) && (12 =? 12) && (1 =? 1)) with true. cbn [andb].
    destruct (dns_copy_name_exact p (r + 10) (repeat 0 256) BP ltac:(lia)) as (x & -> & N). cbn [obind]. change (zlen (repeat 0 256)) with 256 in N. destruct x as [out|].
    + destruct N as (l2 & rest & D2 & -> & _). rewrite (dname_det _ _ _ D _ D2). exists rest. reflexivity.
    + specialize (N _ D). lia.
  - pose proof (w16_byte p (r0 + 8) BP). destruct (Z.ltb_spec (zlen p) (r0 + 10)); [lia|]. rewrite mread_sub by lia. cbn [obind]. rewrite !rd16_sub by lia. rewrite Z.add_0_r, T.
    destruct (Z.ltb_spec (zlen p) (r0 + 10 + w16 p (r0 + 8))); [lia|]. change (2 =? 1) with false. cbn [andb]. change (2 =? 2) with true. cbn [andb].
    destruct (IH ltac:(lia)) as (rest & IH'). exists rest. replace (Z.to_nat (n - 1)) with k in IH' by lia.
    destruct ((w16 p r0 =? 12) && (w16 p (r0 + 2) =? 1)) eqn:TT; [|exact IH'].
    destruct (dns_copy_name_exact p (r0 + 10) (repeat 0 256) BP ltac:(lia)) as (x & -> & N). cbn [obind]. destruct x as [out|]; [|exact IH'].
    destruct N as (l2 & rest2 & D2 & E2 & L2). exfalso. apply (NM l2). split; [lia|]. split; [lia|]. split; [exact D2|]. rewrite E2, !zlen_app in L2. change (zlen (repeat 0 256)) with 256 in L2. change (zlen [0]) with 1 in L2. pose proof (zlen_nonneg rest2). lia.
Qed.

(** C85.  The answer to a reverse lookup is not lost: whatever the history, if afterwards a
    question for a host name is outstanding (in the sense of the specification of C24), any
    message answering it is delivered: the callback gets the name in the first PTR record
    that holds a readable one, as dotted text with its terminator. *)
Theorem dns_ptr_answer_is_delivered : forall os, Forall dop_ok os ->
  exists s rs st, drun dns_init os = Some (s, rs) /\ dspec_run None os rs st /\
  forall q p r ls, st = Some q -> o_qtype q = 12 -> Forall byte p -> answers q p -> first_ptr p (12 + zlen (question q)) (w16 p 6) r ls ->
    exists rest, option_map snd (dstep s (DRx p)) = Some (RNone, [CallPtr (o_cb q) (dotted ls ++ [0] ++ rest)]).
Proof.
  assert (G : forall os s st, DRep s st -> Forall dop_ok os -> exists s' rs st', drun s os = Some (s', rs) /\ dspec_run st os rs st' /\ DRep s' st').
  { induction os as [|o os IH]; intros s st HR HO; cbn [drun]; [exists s, [], st; split; [reflexivity|split; [constructor|exact HR]]|]. inversion HO; subst.
    destruct (step_refines s st o HR ltac:(assumption)) as (s1 & r & st1 & E & S & HR1). rewrite E. cbn [obind]. destruct (IH s1 st1 HR1 ltac:(assumption)) as (s2 & rs & st2 & E2 & S2 & HR2). rewrite E2. cbn [obind].
    do 3 eexists. split; [reflexivity|]. split; [econstructor; eauto|exact HR2]. }
  intros os HO. destruct (G os dns_init None (abort_rep dns_init) HO) as (s & rs & st & E & R & HR). exists s, rs, st. split; [exact E|]. split; [exact R|].
  intros q p r ls -> QT BP A FP. cbn [dstep]. rewrite (rx_accepted _ _ _ HR BP A). destruct HR as (_ & _ & _ & _ & _ & _ & _ & [(Y & _)|(_ & Y2 & Y3)]); [lia|].
  destruct (ptr_deliver s p BP Y2 _ _ _ _ FP ltac:(pose proof (zlen_nonneg (question q)); lia)) as (rest & ->). cbn [obind option_map snd]. rewrite Y3. exists rest. reflexivity.
Qed.

Print Assumptions dns_lookups_end.
Print Assumptions dns_ptr_answer_is_delivered.
Print Assumptions dns_lookups_end_without_timer_refuted.
Print Assumptions dns_needs_question_to_end_refuted.

(** Non-vacuity: a lookup whose answer never comes, repeated three times (one cannot be
    sent in the second run), then the next lookup. *)
Example ex_end_hyp : Forall timers_ok [DLookup [97;46;98] 5 258 env_ok; DRx (ans 99); DTimeout true true] /\ works env_ok /\ askable [97;46;98].
Proof.
  split; [repeat constructor|]. split; [repeat split|]. split; [vm_compute; discriminate|]. exists [[97]; [98]]. split; [left; reflexivity|]. split; [|vm_compute; discriminate].
  repeat constructor; try (vm_compute; discriminate); intros [K|[]]; discriminate.
Qed.
Example ex_end_run : option_map (fun r => map fst (snd r)) (drun dns_init ([DLookup [97;46;98] 5 258 env_ok; DLookup [98] 6 9 env_ok] ++ repeat (DTimeout true true) 3 ++ [DLookup [98] 6 9 env_ok; DTimeout false true; DLookup [98] 6 9 env_ok])) =
  Some [RRet 0; RRet (-16); RNone; RNone; RNone; RRet (-16); RNone; RRet 0].
Proof. vm_compute. reflexivity. Qed.

(** Non-vacuity: a reverse lookup of 10.0.0.7 answered with an unreadable PTR record (a
    pointer to itself) and a readable one, "h". *)
Definition ptr_ans : list Z := [1;2; 129;128; 0;1; 0;2; 0;0; 0;0] ++ wire (rev_labels 167772167) ++ [0;12; 0;1] ++
  [192;12; 0;12; 0;1; 0;0;0;9; 0;2; 192;51] ++ [192;12; 0;12; 0;1; 0;0;0;9; 0;3; 1;104;0].
Example ex_ptr_rx : option_map (fun r => map (fun x => match snd x with [CallPtr cb t] => (cb, firstn 3 t) | _ => (0, []) end) (snd r)) (drun dns_init [DPtr 167772167 5 258 env_ok; DRx ptr_ans]) =
  Some [(0, []); (5, [104; 0; 0])].
Proof. vm_compute. reflexivity. Qed.
Definition ptr_q : oq := {| o_id := 258; o_name := rev_labels 167772167; o_qtype := 12; o_cb := 5; o_left := 3 |}.
Example ex_ptr_hyp : answers ptr_q ptr_ans /\ exists r, first_ptr ptr_ans (12 + zlen (question ptr_q)) (w16 ptr_ans 6) r [[104]].
Proof.
  split; [vm_compute; intuition (try discriminate; auto)|]. eexists. eapply FP_next.
  - vm_compute; reflexivity.
  - apply NE_ptr; vm_compute; [discriminate|reflexivity|discriminate].
  - vm_compute; discriminate.
  - intros l0 (_ & _ & D & _). change (12 + zlen (question ptr_q) + 2 + 10) with 51 in D. assert (Z1 : zget ptr_ans 51 = 192) by reflexivity. assert (Z2 : zget ptr_ans (51 + 1) = 51) by reflexivity.
    inversion D; subst; rewrite ?Z1, ?Z2 in *; lia.
  - eapply FP_here; [vm_compute; reflexivity|apply NE_ptr; vm_compute; [discriminate|reflexivity|discriminate]|vm_compute; discriminate|].
    split; [reflexivity|]. split; [reflexivity|]. split; [|reflexivity].
    apply DN_label with (ls := []); [split; vm_compute; [discriminate|reflexivity]|split; vm_compute; [discriminate|reflexivity]|vm_compute; discriminate|].
    apply DN_end; [split; vm_compute; [discriminate|reflexivity]|reflexivity].
Qed.
