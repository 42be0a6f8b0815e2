(** C33: TFTP request parsing is safe. *)
From Verif Require Import Base ListUtil Bits HttpUrl ForwardProofs TftpCodec TftpCodecSpec TftpCodecProofs TftpCodecParse.
Local Ltac Zify.zify_post_hook ::= idtac.

(** The value a parsed request / negotiation result holds for an option. *)
Definition val (q : preq) (k : okind) : Z :=
  match k with KBlk => q_blksize q | KTmo => q_timeout q | KTsz => q_tsize q | KWin => q_window q end.
Definition nval (g : neg) (k : okind) : Z :=
  match k with KBlk => n_blksize g | KTmo => n_timeout g | KTsz => n_tsize g | KWin => n_window g end.

(** ** Facts about [given] *)
Lemma given_snoc k os kv v : given k (os ++ [kv]) v <-> says kv k v \/ (given k os v /\ forall v', ~ says kv k v').
Proof.
  split.
  - intros H. inversion H as [os' kv' v' S E|os' kv' v' G N E]; apply app_inj_tail in E; destruct E; subst; [left|right]; auto.
  - intros [S|[G N]]; [apply given_here|apply given_before]; assumption.
Qed.
Lemma given_nil k v : ~ given k [] v.
Proof. intros H. inversion H; destruct os; discriminate. Qed.
Lemma says_fun kv k v w : says kv k v -> says kv k w -> v = w.
Proof. intros A B. exact (proj2 (says_kind _ _ _ _ _ A B)). Qed.
Lemma given_fun k os : forall v w, given k os v -> given k os w -> v = w.
Proof.
  induction os as [|kv os IH] using rev_ind; intros v w A B; [apply given_nil in A; tauto|].
  apply given_snoc in A. apply given_snoc in B. destruct A as [A|[A NA]], B as [B|[B NB]]; [exact (says_fun _ _ _ _ A B)|exfalso; exact (NB _ A)|exfalso; exact (NA _ B)|exact (IH _ _ A B)].
Qed.
Lemma kind_dec (a b : okind) : {a = b} + {a <> b}.
Proof. decide equality. Defined.
Lemma given_upd os kv k v : says kv k v -> forall k' v', given k' (os ++ [kv]) v' <-> (k' = k /\ v' = v) \/ (k' <> k /\ given k' os v').
Proof.
  intros S k' v'. rewrite given_snoc. split.
  - intros [A|[A N]]; [left; destruct (says_kind _ _ _ _ _ A S); auto|]. right. split; [|assumption]. intros ->. exact (N v S).
  - intros [[-> ->]|[N A]]; [left; assumption|]. right. split; [assumption|]. intros w W. apply N. exact (proj1 (says_kind _ _ _ _ _ W S)).
Qed.
Lemma testbit_lor_pow o b k : 0 <= o -> 0 <= b -> 0 <= k -> Z.testbit (Z.lor o (2 ^ b)) k = Z.testbit o k || (k =? b).
Proof. intros. rewrite Z.lor_spec, Z.pow2_bits_eqb by assumption. rewrite (Z.eqb_sym b k). reflexivity. Qed.
Lemma lor_small o b : 0 <= o < 16 -> 0 <= b < 4 -> 0 <= Z.lor o (2 ^ b) < 16.
Proof.
  intros Ho Hb. assert (0 <= Z.lor o (2 ^ b)) by (apply Z.lor_nonneg; split; [lia|apply Z.pow_nonneg; lia]). split; [assumption|].
  destruct (Z.eq_dec (Z.lor o (2 ^ b)) 0) as [E|E]; [lia|]. apply (Z.log2_lt_pow2 _ 4); [lia|]. rewrite Z.log2_lor by (try (apply Z.pow_nonneg); lia).
  rewrite Z.log2_pow2 by lia. destruct (Z.eq_dec o 0) as [->|]; [cbn; lia|]. assert (Z.log2 o < 4) by (apply Z.log2_lt_pow2; lia). lia.
Qed.

(** What the parser extracted. *)
Definition holds (q : preq) (os : list (list Z * list Z)) : Prop :=
  0 <= q_opts q < 16 /\
  forall k, (forall v, given k os v -> val q k = v) /\ (~ mentioned k os -> val q k = 0) /\ (Z.testbit (q_opts q) (bit_of k) = true <-> mentioned k os).
Lemma upd_bit q k v : q_opts (upd q k v) = Z.lor (q_opts q) (2 ^ bit_of k).
Proof. destruct k; reflexivity. Qed.
Lemma upd_val q k v k' : val (upd q k v) k' = if kind_dec k' k then v else val q k'.
Proof. destruct k, k'; reflexivity. Qed.
Lemma bit_range k : 0 <= bit_of k < 4.
Proof. destruct k; cbn; lia. Qed.
Lemma bit_inj a b : bit_of a = bit_of b -> a = b.
Proof. destruct a, b; cbn; intros; try reflexivity; discriminate. Qed.
Lemma applied_holds os op name q : applied upd (fun _ => True) os (mkReq op name 0 0 0 0 0) q -> q_op q = op /\ q_name q = name /\ holds q os.
Proof.
  revert q. induction os as [|kv os IH] using rev_ind; intros q H.
  - inversion H; subst. repeat (split; [reflexivity|]). split; [cbn; lia|]. intros k. split; [intros v G; apply given_nil in G; tauto|]. split; [destruct k; reflexivity|].
    split; [destruct k; discriminate|]. intros [v G]. apply given_nil in G. tauto.
  - apply applied_snoc_inv in H. destruct H as (q1 & k & v & A & S & _ & ->). destruct (IH q1 A) as (E1 & E2 & O & F).
    split; [destruct k; exact E1|]. split; [destruct k; exact E2|]. split; [rewrite upd_bit; apply lor_small; [assumption|apply bit_range]|].
    intros k'. destruct (F k') as (F1 & F2 & F3). rewrite upd_val, upd_bit. pose proof (bit_range k). pose proof (bit_range k'). rewrite testbit_lor_pow by lia.
    split; [|split].
    + intros w G. apply (given_upd os kv k v S) in G. destruct (kind_dec k' k); [|apply F1]; destruct G as [[? ?]|[? ?]]; subst; tauto.
    + intros M. destruct (kind_dec k' k) as [->|N]; [exfalso; apply M; exists v; apply given_here; assumption|]. apply F2. intros [w G]. apply M. exists w. apply (given_upd os kv k v S). tauto.
    + rewrite orb_true_iff, F3, Z.eqb_eq. split.
      * intros [[w G]|B]; [|apply bit_inj in B; subst; exists v; apply given_here; assumption].
        destruct (kind_dec k' k) as [->|N]; [exists v; apply given_here; assumption|exists w; apply (given_upd os kv k v S); tauto].
      * intros [w G]. apply (given_upd os kv k v S) in G. destruct G as [[-> _]|[_ G]]; [right; reflexivity|left; exists w; assumption].
Qed.
Lemma mentioned_dec os : (forall kv, In kv os -> exists k v, says kv k v) -> forall k, mentioned k os \/ ~ mentioned k os.
Proof.
  induction os as [|kv os IH] using rev_ind; intros P k; [right; intros [v G]; apply given_nil in G; tauto|].
  destruct (P kv) as (k' & v & S); [apply in_or_app; right; left; reflexivity|].
  destruct (kind_dec k k') as [->|N]; [left; exists v; apply given_here; assumption|].
  destruct (IH (fun x h => P x (in_or_app _ _ _ (or_introl h))) k) as [[w G]|M]; [left; exists w|right; intros [w G]; apply M; exists w]; apply (given_upd os kv k' v S) in G || apply (given_upd os kv k' v S); tauto.
Qed.
Lemma holds_unique q q' os : (forall kv, In kv os -> exists k v, says kv k v) -> q_op q = q_op q' -> q_name q = q_name q' -> holds q os -> holds q' os -> q = q'.
Proof.
  intros P E1 E2 [O F] [O' F'].
  assert (V : forall k, val q k = val q' k).
  { intros k. destruct (F k) as (A & B & _), (F' k) as (A' & B' & _). destruct (mentioned_dec os P k) as [[v G]|M]; [rewrite (A v G), (A' v G)|rewrite (B M), (B' M)]; reflexivity. }
  assert (T : q_opts q = q_opts q').
  { assert (T4 : forall k, Z.testbit (q_opts q) (bit_of k) = Z.testbit (q_opts q') (bit_of k)).
    { intros k. destruct (F k) as (_ & _ & A), (F' k) as (_ & _ & A'). destruct (Z.testbit (q_opts q) (bit_of k)), (Z.testbit (q_opts q') (bit_of k)); try reflexivity; exfalso.
      - assert (false = true) by (apply A', A; reflexivity). discriminate.
      - assert (false = true) by (apply A, A'; reflexivity). discriminate. }
    apply Z.bits_inj'. intros i Hi. destruct (Z_lt_ge_dec i 4) as [L|L].
    - assert (i = bit_of KBlk \/ i = bit_of KTmo \/ i = bit_of KTsz \/ i = bit_of KWin) as C by (cbn; lia). destruct C as [-> |[-> |[-> | ->]]]; apply T4.
    - rewrite !Z.bits_above_log2; try reflexivity; try lia.
      + destruct (Z.eq_dec (q_opts q') 0) as [E|]; [rewrite E; cbn; lia|]. assert (Z.log2 (q_opts q') < 4) by (apply Z.log2_lt_pow2; lia). lia.
      + destruct (Z.eq_dec (q_opts q) 0) as [E|]; [rewrite E; cbn; lia|]. assert (Z.log2 (q_opts q) < 4) by (apply Z.log2_lt_pow2; lia). lia. }
  destruct q, q'. pose proof (V KBlk). pose proof (V KTmo). pose proof (V KTsz). pose proof (V KWin). cbn in *. subst. reflexivity.
Qed.

(** ** The parser *)
Lemma parse_request_spec buf : Forall byte buf -> zlen buf <= 65535 ->
  exists s, parse_request buf = Some s /\
    match s with
    | inl q => exists os, request buf (q_op q) (q_name q) os /\ applied upd (fun _ => True) os (mkReq (q_op q) (q_name q) 0 0 0 0 0) q
    | inr e => (e = ERR_PACKET \/ e = ERR_UNSUPPORTED) /\ ~ exists op name os, request buf op name os
    end.
Proof.
  intros Hb Hl. unfold parse_request.
  destruct (Z.ltb_spec (zlen buf) 4) as [L|L].
  { eexists. split; [reflexivity|]. split; [left; reflexivity|]. intros (op & name & os & mode & _ & _ & Ln & _ & M & _ & E). subst buf.
    apply nocase_nonempty in M; [|discriminate]. apply zlen_pos_ne in M. unfold w16, cstr in L. rewrite !zlen_app in L. rewrite !zlen_cons in L. change (zlen (@nil Z)) with 0 in L.
    pose proof (zlen_nonneg (flat_map wire os)). lia. }
  destruct buf as [|b0 [|b1 rest]]; [cbn in L; lia|cbn in L; lia|].
  assert (B0 : rd1 (b0 :: b1 :: rest) 0 = Some b0) by (pose proof (rd1_at [] (b1 :: rest) b0) as R; exact R).
  assert (B1 : rd1 (b0 :: b1 :: rest) 1 = Some b1) by (pose proof (rd1_at [b0] rest b1) as R; exact R).
  unfold read_u16. change (0 + 1) with 1. rewrite B0, B1. cbn [obind]. pose proof (Forall_inv Hb) as Hb0. pose proof (Forall_inv (Forall_inv_tail Hb)) as Hb1. pose proof (Forall_inv_tail (Forall_inv_tail Hb)) as Hr.
  assert (W : forall op x, b0 :: b1 :: rest = w16 op ++ x -> 256 * b0 + b1 = op /\ rest = x).
  { intros op x E. unfold w16 in E. cbn [app] in E. injection E as -> -> ->. split; [|reflexivity]. pose proof (Z.div_mod op 256 ltac:(lia)). lia. }
  destruct (negb (256 * b0 + b1 =? OP_RRQ) && negb (256 * b0 + b1 =? OP_WRQ)) eqn:Eo.
  { eexists. split; [reflexivity|]. split; [left; reflexivity|]. intros (op & name & os & mode & O & _ & _ & _ & _ & _ & E). apply W in E. unfold OP_RRQ, OP_WRQ in Eo. lia. }
  assert (Op : 256 * b0 + b1 = 1 \/ 256 * b0 + b1 = 2) by (unfold OP_RRQ, OP_WRQ in Eo; lia).
  assert (B : b0 :: b1 :: rest = w16 (256 * b0 + b1) ++ rest). { unfold w16. unfold byte in *. assert (b0 = 0) as -> by lia. cbn [app]. assert (b1 = 1 \/ b1 = 2) as [-> | ->] by lia; reflexivity. }
  change (b0 :: b1 :: rest) with ([b0; b1] ++ rest) at 1 2. rewrite (strnlen_at [b0; b1] rest) by solve [reflexivity|rewrite zlen_app; change (zlen [b0; b1]) with 2; unfold zlen; lia].
  pose proof (cut_spec rest) as C. destruct (cut rest) as [name o] eqn:Ec. cbn [fst obind]. destruct C as [Nn C].
  assert (LR : zlen (b0 :: b1 :: rest) = 2 + zlen rest) by (rewrite !zlen_cons; lia).
  assert (Ln : zlen name <= zlen rest) by (destruct o; subst; rewrite ?zlen_app, ?zlen_cons; try lia; pose proof (zlen_nonneg l); lia).
  assert (U : u16 (2 + zlen name) = 2 + zlen name) by (apply u16_small; pose proof (zlen_nonneg name); lia). rewrite U.
  destruct ((zlen name =? 0) || (MAX_FILENAME <=? zlen name) || (zlen (b0 :: b1 :: rest) <=? 2 + zlen name)) eqn:E1.
  { eexists. split; [reflexivity|]. split; [left; reflexivity|]. intros (op & name' & os & mode & _ & N' & L' & _ & _ & _ & E). apply W in E. destruct E as [_ E].
    unfold cstr in E. rewrite <- !app_assoc in E. cbn [app] in E. subst rest. rewrite cut_app in Ec by assumption. injection Ec as <- <-. unfold MAX_FILENAME in E1.
    rewrite LR, zlen_app, zlen_cons in E1. pose proof (zlen_nonneg (mode ++ 0 :: flat_map wire os)). lia. }
  destruct o as [r|]; [|subst; lia]. subst rest.
  assert (MR : mread (b0 :: b1 :: name ++ 0 :: r) 2 (zlen name) = Some name) by (apply (mread_eq _ [b0; b1] name (0 :: r)); reflexivity).
  rewrite MR. cbn [obind]. assert (Nne : name <> []) by (intros ->; cbn in E1; lia).
  destruct (filename_is_safe_spec name Nn Nne) as (ok & Ef & F). rewrite Ef. cbn [obind].
  assert (Inv : forall op name' os, request (b0 :: b1 :: name ++ 0 :: r) op name' os -> name' = name /\ exists mode, r = mode ++ 0 :: flat_map wire os /\ nonul mode /\ nocase mode s_octet /\ confined name /\ (forall kv, In kv os -> exists k v, says kv k v /\ True)).
  { intros op name' os (mode & _ & N' & _ & Cf & M & P & E). apply W in E. destruct E as [_ E]. unfold cstr in E. rewrite <- !app_assoc in E. cbn [app] in E.
    rewrite E in Ec. rewrite cut_app in Ec by assumption. injection Ec as -> Er. split; [reflexivity|]. exists mode. split; [congruence|]. split; [eapply nocase_nonul; [exact M|repeat (apply Forall_cons; [lia|]); apply Forall_nil]|].
    split; [exact M|]. split; [assumption|]. intros kv I. destruct (P kv I) as (k & v & S). eauto. }
  destruct ok; cbn [negb].
  2:{ eexists. split; [reflexivity|]. split; [left; reflexivity|]. intros (op & name' & os & R). destruct (Inv _ _ _ R) as (_ & mode & _ & _ & _ & Cf & _). apply F in Cf. discriminate. }
  set (pre := b0 :: b1 :: name ++ [0]). assert (BP : b0 :: b1 :: name ++ 0 :: r = pre ++ r) by (unfold pre; cbn [app]; rewrite <- app_assoc; reflexivity).
  assert (PL : 2 + zlen name + 1 = zlen pre) by (unfold pre; rewrite !zlen_cons, zlen_app; change (zlen [0]) with 1; lia).
  rewrite PL, BP. rewrite (strnlen_at pre r) by (rewrite ?zlen_app; unfold zlen; lia). cbn [obind].
  pose proof (cut_spec r) as C. destruct (cut r) as [mode om] eqn:Em. cbn [fst]. destruct C as [Nm C].
  destruct ((zlen mode =? 0) || (zlen (pre ++ r) <=? zlen pre + zlen mode)) eqn:E2; cbn [obind negb].
  { eexists. split; [reflexivity|]. split; [right; reflexivity|]. rewrite <- BP. intros (op & name' & os & R). destruct (Inv _ _ _ R) as (_ & mode' & E & Nm' & M & _).
    rewrite E in Em. rewrite cut_app in Em by assumption. injection Em as <- <-. apply nocase_nonempty in M; [|discriminate]. apply zlen_pos_ne in M.
    rewrite E, zlen_app, zlen_app, zlen_cons in E2. pose proof (zlen_nonneg (flat_map wire os)). lia. }
  destruct om as [ro|]; [|subst; rewrite zlen_app in E2; lia]. subst r.
  destruct (striceq_spec s_octet mode pre ro Nm) as (eq & Es & Fs); [repeat (apply Forall_cons; [lia|]); apply Forall_nil|]. rewrite Es. cbn [obind].
  destruct eq; cbn [negb].
  2:{ eexists. split; [reflexivity|]. split; [right; reflexivity|]. rewrite <- BP. intros (op & name' & os & R). destruct (Inv _ _ _ R) as (_ & mode' & E & Nm' & M & _).
      rewrite E in Em. rewrite cut_app in Em by assumption. injection Em as <- _. apply Fs in M. discriminate. }
  set (pre2 := pre ++ mode ++ [0]). assert (BP2 : pre ++ mode ++ 0 :: ro = pre2 ++ ro) by (unfold pre2; rewrite <- !app_assoc; reflexivity).
  assert (PL2 : zlen pre + zlen mode + 1 = zlen pre2) by (unfold pre2; rewrite !zlen_app; change (zlen [0]) with 1; lia). rewrite PL2, BP2.
  assert (Hro : Forall byte ro). { apply Forall_app in Hr. destruct Hr as [_ Hr]. inversion Hr; subst. match goal with H : Forall byte (mode ++ _) |- _ => apply Forall_app in H; destruct H as [_ H]; inversion H; assumption end. }
  destruct (req_options_spec (length (pre2 ++ ro)) ro pre2 (mkReq (256 * b0 + b1) name 0 0 0 0 0) Hro) as (s & Eq & R); [rewrite app_length; lia|].
  rewrite Eq. exists s. split; [reflexivity|]. destruct s as [q|e].
  - destruct R as (os & -> & A). destruct (applied_holds _ _ _ _ A) as (E3 & E4 & _). exists os. rewrite E3, E4. split; [|exact A]. rewrite <- BP2, <- BP.
    exists mode. split; [exact Op|]. split; [assumption|]. unfold MAX_FILENAME in E1. split; [pose proof (zlen_nonneg name); lia|]. split; [apply F; reflexivity|]. split; [apply Fs; reflexivity|].
    split; [intros kv I; destruct (applied_ok _ _ _ _ _ _ A kv I) as (k & v & S & _); eauto|]. rewrite B. unfold cstr. rewrite <- !app_assoc. reflexivity.
  - destruct R as (Q & R). split; [exact Q|]. intros (op & name' & os & Rq). rewrite <- BP2, <- BP in Rq. destruct (Inv _ _ _ Rq) as (_ & mode' & E & Nm' & M & _ & P).
    apply R. rewrite E in Em. rewrite cut_app in Em by assumption. injection Em as _ Em. exists os. split; [congruence|exact P].
Qed.

(** C33: parsing any datagram stays inside it, terminates, and accepts exactly the
    well-formed requests: NUL-terminated strings, a confined file name, octet mode,
    known options with values in range. *)
Theorem tftp_request_parse_exact : forall buf, Forall byte buf -> zlen buf <= 65535 ->
  (exists r, parse_request buf = Some r /\ (forall e, r = inr e -> e = ERR_PACKET \/ e = ERR_UNSUPPORTED)) /\
  (forall q, parse_request buf = Some (inl q) <-> exists os, request buf (q_op q) (q_name q) os /\ holds q os).
Proof.
  intros buf Hb Hl. destruct (parse_request_spec buf Hb Hl) as (s & E & R). split.
  - exists s. split; [exact E|]. intros e ->. tauto.
  - intros q. rewrite E. split.
    + intros [= ->]. destruct R as (os & R & A). exists os. split; [exact R|]. exact (proj2 (proj2 (applied_holds _ _ _ _ A))).
    + intros (os & Rq & H). destruct s as [q'|e]; [|exfalso; apply (proj2 R); eauto]. destruct R as (os' & R & A).
      pose proof Rq as (mode & O & N & L & Cf & M & P & Eb). pose proof R as (mode' & O' & N' & L' & Cf' & M' & P' & Eb').
      assert (Nm : nonul mode /\ nonul mode') by (split; eapply nocase_nonul; try eassumption; repeat (apply Forall_cons; [lia|]); apply Forall_nil).
      assert (X : w16 (q_op q) ++ q_name q ++ 0 :: mode ++ 0 :: flat_map wire os = w16 (q_op q') ++ q_name q' ++ 0 :: mode' ++ 0 :: flat_map wire os').
      { unfold cstr in *. rewrite <- !app_assoc in Eb, Eb'. cbn [app] in Eb, Eb'. congruence. }
      unfold w16 in X. cbn [app] in X. injection X as X1 X2 X. assert (Eop : q_op q = q_op q') by (pose proof (Z.div_mod (q_op q) 256 ltac:(lia)); pose proof (Z.div_mod (q_op q') 256 ltac:(lia)); lia).
      pose proof (cut_app (q_name q) (mode ++ 0 :: flat_map wire os) N) as Y. rewrite X in Y. rewrite cut_app in Y by assumption. injection Y as Y1 Y.
      pose proof (cut_app mode (flat_map wire os) (proj1 Nm)) as V. rewrite <- Y in V. rewrite cut_app in V by tauto. injection V as _ V.
      assert (os = os') as <- by (apply wire_cons_inj; auto). f_equal. f_equal. apply (holds_unique q' q os P'); auto. exact (proj2 (proj2 (applied_holds _ _ _ _ A))).
Qed.
Print Assumptions tftp_request_parse_exact.

(** ** Numerals written by the code *)
Lemma rev_digits_spec : forall n v, 0 < v < 10 ^ Z.of_nat n -> digits (rev (rev_digits n v)) /\ decval (rev (rev_digits n v)) = v /\ rev_digits n v <> [].
Proof.
  induction n as [|n IH]; intros v H; [cbn in H; lia|]. cbn [rev_digits]. destruct (Z.eqb_spec v 0); [lia|]. cbn [rev].
  pose proof (Z.div_mod v 10 ltac:(lia)). pose proof (Z.mod_pos_bound v 10 ltac:(lia)).
  rewrite Nat2Z.inj_succ, Z.pow_succ_r in H by lia. rewrite decval_app. destruct (Z.eq_dec (v / 10) 0) as [E|E].
  - rewrite E. assert (rev_digits n 0 = []) as -> by (destruct n; reflexivity). cbn [rev app]. split; [apply Forall_cons; [lia|apply Forall_nil]|]. split; [change (decval []) with 0; lia|discriminate].
  - destruct (IH (v / 10)) as (A & B & C); [split; [assert (0 <= v / 10) by (apply Z.div_pos; lia); lia|apply Z.div_lt_upper_bound; lia]|].
    split; [apply Forall_app; split; [exact A|apply Forall_cons; [lia|apply Forall_nil]]|]. split; [lia|discriminate].
Qed.
Lemma rev_digits_len : forall n m v, v < 10 ^ Z.of_nat m -> 0 <= v -> (length (rev_digits n v) <= m)%nat.
Proof.
  induction n as [|n IH]; intros m v H H0; cbn [rev_digits]; [cbn; lia|]. destruct (Z.eqb_spec v 0); [cbn; lia|].
  destruct m as [|m]; [cbn in H; lia|]. cbn [length]. rewrite Nat2Z.inj_succ, Z.pow_succ_r in H by lia.
  specialize (IH m (v / 10)). apply le_n_S, IH; [apply Z.div_lt_upper_bound; lia|apply Z.div_pos; lia].
Qed.
Lemma utoa_spec v : 0 <= v <= 4294967295 -> numeral (utoa 16 v) v /\ zlen (utoa 16 v) <= 10 /\ (v <= 65535 -> zlen (utoa 16 v) <= 5).
Proof.
  intros H. unfold utoa. destruct (Z.eqb_spec v 0) as [->|N].
  { replace (firstn (Z.to_nat (16 - 1)) (rev [48])) with [48] by reflexivity. change (zlen [48]) with 1. split; [split; [discriminate|split; [apply Forall_cons; [lia|apply Forall_nil]|reflexivity]]|lia]. }
  destruct (rev_digits_spec 20 v) as (A & B & C); [split; [lia|]; change (10 ^ Z.of_nat 20) with 100000000000000000000; lia|].
  assert (L : (length (rev_digits 20 v) <= 10)%nat) by (apply rev_digits_len; [change (10 ^ Z.of_nat 10) with 10000000000; lia|lia]).
  rewrite firstn_all2 by (rewrite rev_length; change (Z.to_nat (16 - 1)) with 15%nat; lia).
  split; [split; [|split; assumption]|]. { intros X. apply C. rewrite <- (rev_involutive (rev_digits 20 v)), X. reflexivity. }
  unfold zlen. rewrite rev_length. split; [lia|]. intros L5. assert ((length (rev_digits 20 v) <= 5)%nat) by (apply rev_digits_len; [change (10 ^ Z.of_nat 5) with 100000; lia|lia]). lia.
Qed.

(** ** Building *)
Definition optl (cond : bool) (key : list Z) (v : Z) : list (list Z * list Z) := if cond then [(key, utoa 16 v)] else [].
Lemma maybe_opt_spec cond key v bit done opts buf rest max : zlen buf = max -> max <= 65535 -> buf = done ++ rest ->
  (cond = true -> zlen done + zlen key + 1 + zlen (utoa 16 v) + 1 <= max) ->
  exists buf' rest', maybe_opt cond key v bit max (buf, zlen done, opts, 0) =
    Some (buf', zlen (done ++ flat_map wire (optl cond key v)), (if cond then Z.lor opts bit else opts), 0) /\
    zlen buf' = max /\ buf' = (done ++ flat_map wire (optl cond key v)) ++ rest'.
Proof.
  intros Hm Hx -> Hc. unfold maybe_opt, optl. change (negb (0 =? 0)) with false. cbv iota. destruct cond.
  2:{ exists (done ++ rest), rest. cbn [flat_map]. rewrite app_nil_r. auto. }
  specialize (Hc eq_refl). unfold append_opt. set (val := utoa 16 v) in *. replace (max <? zlen done + (zlen key + 1) + (zlen val + 1)) with false by lia.
  pose proof (zlen_nonneg done). pose proof (zlen_nonneg key). pose proof (zlen_nonneg val). rewrite zlen_app in Hm.
  destruct (split_at rest (zlen key + 1)) as (r1 & r2 & -> & L1 & L2); [lia|].
  rewrite (mwrite_eq (done ++ r1 ++ r2) done r1 r2 (key ++ [0]) (zlen done) (done ++ (key ++ [0]) ++ r2)) by (rewrite ?zlen_app; change (zlen [0]) with 1; auto; lia).
  cbn [obind]. rewrite u16_small by lia. rewrite zlen_app in Hm. destruct (split_at r2 (zlen val + 1)) as (r3 & r4 & -> & L3 & L4); [lia|].
  rewrite (mwrite_eq (done ++ (key ++ [0]) ++ r3 ++ r4) (done ++ key ++ [0]) r3 r4 (val ++ [0]) _ ((done ++ key ++ [0]) ++ (val ++ [0]) ++ r4)) by (rewrite <- ?app_assoc; rewrite ?zlen_app; change (zlen [0]) with 1; auto; lia).
  cbn [obind]. rewrite u16_small by lia. eexists _, r4. cbn [flat_map]. unfold wire, cstr. cbn [fst snd]. change (0 =? 0) with true. cbv iota.
  split; [|split].
  - repeat f_equal. rewrite !zlen_app. change (zlen [0]) with 1. change (zlen []) with 0. lia.
  - rewrite !zlen_app in *. change (zlen [0]) with 1 in *. lia.
  - rewrite <- !app_assoc. reflexivity.
Qed.

(** Configurations as wolftftp_cfg_defaults leaves them (any 16-bit timeout). *)
Definition cfg_ok (c : cfg) : Prop :=
  1 <= c_blksize c <= 1428 /\ 1 <= c_timeout c <= 65535 /\ 1 <= c_window c <= 8 /\ 0 <= c_maximg c <= 4294967295.
Lemma cfg_defaults_ok c : 0 <= c_blksize c <= 65535 -> 0 <= c_timeout c <= 65535 -> 0 <= c_window c <= 65535 -> 0 <= c_maximg c <= 4294967295 -> cfg_ok (cfg_defaults c).
Proof.
  intros A B C D. unfold cfg_ok, cfg_defaults, MAX_BLKSIZE, DEFAULT_BLKSIZE, MAX_WINDOWSIZE, DEFAULT_TIMEOUT_S. cbn.
  repeat match goal with |- context [if ?b then _ else _] => destruct b eqn:? end; lia.
Qed.
(** The options the code asks for, in order. *)
Definition wanted (c : cfg) (tsize : Z) : list (list Z * list Z) :=
  optl (negb (c_blksize c =? 512)) s_blksize (c_blksize c) ++ optl (negb (c_timeout c =? 1)) s_timeout (c_timeout c) ++
  optl (1 <? c_window c) s_windowsize (c_window c) ++ optl (negb (tsize =? 0) || negb (c_maximg c =? 0)) s_tsize tsize.
Definition wanted_bits (c : cfg) (tsize : Z) : Z :=
  let b1 := if negb (c_blksize c =? 512) then Z.lor 0 1 else 0 in
  let b2 := if negb (c_timeout c =? 1) then Z.lor b1 2 else b1 in
  let b3 := if 1 <? c_window c then Z.lor b2 8 else b2 in
  if negb (tsize =? 0) || negb (c_maximg c =? 0) then Z.lor b3 4 else b3.
Lemma optl_len cond key v m : 0 <= v <= 4294967295 -> zlen (utoa 16 v) <= m -> zlen (flat_map wire (optl cond key v)) <= zlen key + m + 2 /\ (cond = false -> zlen (flat_map wire (optl cond key v)) = 0).
Proof.
  intros H L. unfold optl. destruct cond; cbn [flat_map]; unfold wire, cstr; cbn [fst snd].
  - rewrite !zlen_app. change (zlen [0]) with 1. change (zlen []) with 0. split; [lia|discriminate].
  - change (zlen []) with 0. pose proof (zlen_nonneg key). pose proof (zlen_nonneg (utoa 16 v)). split; [lia|reflexivity].
Qed.
Lemma build_request_spec buf op name tail c tsize : zlen buf = 256 -> (op = 1 \/ op = 2) -> nonul name -> 0 < zlen name < 128 -> cfg_ok c -> 0 <= tsize <= 4294967295 ->
  exists buf' rest, build_request buf 256 op (name ++ 0 :: tail) c tsize = Some (0, (buf', wanted_bits c tsize, zlen (w16 op ++ cstr name ++ cstr s_octet ++ flat_map wire (wanted c tsize)))) /\
    buf' = (w16 op ++ cstr name ++ cstr s_octet ++ flat_map wire (wanted c tsize)) ++ rest /\ zlen buf' = 256.
Proof.
  intros Hb Ho Hn Ln (C1 & C2 & C3 & C4) Ht. unfold build_request.
  assert (SN : strnlen (Z.to_nat MAX_FILENAME) (name ++ 0 :: tail) 0 = Some (zlen name)).
  { clear - Hn Ln. unfold MAX_FILENAME. assert (G : forall n pre w, nonul w -> (length w < n)%nat -> strnlen n (pre ++ w ++ 0 :: tail) (zlen pre) = Some (zlen w)).
    { induction n as [|n IH]; intros pre w N L; [lia|]. cbn [strnlen]. destruct w as [|x w]; cbn [app]; rewrite rd1_at; cbn [obind]; [reflexivity|].
      inversion N; subst. destruct (Z.eqb_spec x 0); [tauto|]. specialize (IH (pre ++ [x]) w H2 ltac:(cbn in L; lia)). rewrite <- app_assoc, zlen_app in IH. cbn [app] in IH. change (zlen [x]) with 1 in IH. rewrite IH. rewrite zlen_cons. reflexivity. }
    apply (G _ [] name Hn). unfold zlen in Ln. lia. }
  rewrite SN. cbn [obind]. unfold MAX_FILENAME. replace ((zlen name =? 0) || (128 <=? zlen name)) with false by lia.
  rewrite (u16_small (4 + zlen name + 6)) by lia. replace (256 <? 4 + zlen name + 6) with false by lia.
  destruct (split_at buf 2) as (r0 & r1 & -> & L0 & L1); [lia|].
  assert (E16 : enc16 op = w16 op) by (destruct Ho as [-> | ->]; reflexivity). rewrite E16.
  rewrite (mwrite_eq (r0 ++ r1) [] r0 r1 (w16 op) 0 (w16 op ++ r1)) by (rewrite ?L0; reflexivity). cbn [obind].
  assert (MN : mread (name ++ 0 :: tail) 0 (zlen name + 1) = Some (name ++ [0])).
  { apply (mread_eq _ [] (name ++ [0]) tail); [cbn; rewrite <- app_assoc; reflexivity|reflexivity|rewrite zlen_app; reflexivity]. } rewrite MN. cbn [obind].
  rewrite zlen_app in Hb. destruct (split_at r1 (zlen name + 1)) as (r2 & r3 & -> & L2 & L3); [lia|].
  rewrite (mwrite_eq (w16 op ++ r2 ++ r3) (w16 op) r2 r3 (name ++ [0]) 2 (w16 op ++ (name ++ [0]) ++ r3)); [|reflexivity|reflexivity|rewrite zlen_app, L2; reflexivity|reflexivity]. cbn [obind].
  rewrite (u16_small (2 + zlen name + 1)) by lia. rewrite zlen_app in Hb. destruct (split_at r3 6) as (r4 & r5 & -> & L4 & L5); [lia|].
  rewrite (mwrite_eq _ (w16 op ++ name ++ [0]) r4 r5 (s_octet ++ [0]) _ ((w16 op ++ name ++ [0]) ++ (s_octet ++ [0]) ++ r5));
    [|rewrite <- !app_assoc; reflexivity|rewrite !zlen_app; change (zlen (w16 op)) with 2; change (zlen [0]) with 1; lia|rewrite L4; reflexivity|reflexivity]. cbn [obind].
  rewrite (u16_small (2 + zlen name + 1 + 6)) by lia. rewrite zlen_app in Hb.
  set (d0 := w16 op ++ cstr name ++ cstr s_octet).
  assert (D0 : zlen d0 = 2 + zlen name + 1 + 6) by (unfold d0, cstr; rewrite !zlen_app; change (zlen (w16 op)) with 2; change (zlen [0]) with 1; change (zlen s_octet) with 5; lia).
  replace ((w16 op ++ name ++ [0]) ++ (s_octet ++ [0]) ++ r5) with (d0 ++ r5) by (unfold d0, cstr; rewrite <- !app_assoc; reflexivity). rewrite <- D0.
  destruct (utoa_spec (c_blksize c) ltac:(lia)) as (_ & _ & U1). destruct (utoa_spec (c_timeout c) ltac:(lia)) as (_ & _ & U2). destruct (utoa_spec (c_window c) ltac:(lia)) as (_ & _ & U3). destruct (utoa_spec tsize Ht) as (_ & U4 & _).
  specialize (U1 ltac:(lia)). specialize (U2 ltac:(lia)). specialize (U3 ltac:(lia)).
  unfold DEFAULT_BLKSIZE, DEFAULT_TIMEOUT_S, wanted, wanted_bits, OPT_BLKSIZE, OPT_TIMEOUT, OPT_WINDOWSIZE, OPT_TSIZE. rewrite !flat_map_app.
  set (k1 := negb (c_blksize c =? 512)). set (k2 := negb (c_timeout c =? 1)). set (k3 := 1 <? c_window c). set (k4 := negb (tsize =? 0) || negb (c_maximg c =? 0)).
  pose proof (optl_len k1 s_blksize (c_blksize c) 5 ltac:(lia) U1) as (W1 & _). pose proof (optl_len k2 s_timeout (c_timeout c) 5 ltac:(lia) U2) as (W2 & _).
  pose proof (optl_len k3 s_windowsize (c_window c) 5 ltac:(lia) U3) as (W3 & _).
  change (zlen s_blksize) with 7 in W1. change (zlen s_timeout) with 7 in W2. change (zlen s_windowsize) with 10 in W3.
  destruct (maybe_opt_spec k1 s_blksize (c_blksize c) 1 d0 0 (d0 ++ r5) r5 256) as (bf1 & x1 & E1 & Z1 & S1); [rewrite zlen_app; lia|lia|reflexivity|intros; change (zlen s_blksize) with 7; lia|].
  rewrite E1. cbn [obind].
  destruct (maybe_opt_spec k2 s_timeout (c_timeout c) 2 _ (if k1 then Z.lor 0 1 else 0) bf1 x1 256 Z1 ltac:(lia) S1) as (bf2 & x2 & E2 & Z2 & S2); [intros; rewrite zlen_app; change (zlen s_timeout) with 7; lia|].
  rewrite E2. cbn [obind].
  destruct (maybe_opt_spec k3 s_windowsize (c_window c) 8 _ (if k2 then Z.lor (if k1 then Z.lor 0 1 else 0) 2 else (if k1 then Z.lor 0 1 else 0)) bf2 x2 256 Z2 ltac:(lia) S2) as (bf3 & x3 & E3 & Z3 & S3); [intros; rewrite !zlen_app; change (zlen s_windowsize) with 10; lia|].
  rewrite E3. cbn [obind].
  match goal with |- context [maybe_opt k4 s_tsize tsize 4 256 (bf3, _, ?o, 0)] => destruct (maybe_opt_spec k4 s_tsize tsize 4 _ o bf3 x3 256 Z3 ltac:(lia) S3) as (bf4 & x4 & E4 & Z4 & S4) end; [intros; rewrite !zlen_app; change (zlen s_tsize) with 5; lia|].
  rewrite E4. cbn [obind]. change (0 =? 0) with true. cbv iota. exists bf4, x4. split; [|split; [|exact Z4]].
  - match goal with |- Some (_, (_, _, zlen ?a)) = Some (_, (_, _, zlen ?b)) => replace a with b by (unfold d0; rewrite <- !app_assoc; reflexivity) end. reflexivity.
  - rewrite S4. unfold d0. rewrite <- !app_assoc. reflexivity.
Qed.

(** ** Round trip *)
Lemma firstn_zlen_app {A} (a b : list A) : firstn (Z.to_nat (zlen a)) (a ++ b) = a.
Proof. unfold zlen. rewrite Nat2Z.id, firstn_app, firstn_all, Nat.sub_diag. cbn. apply app_nil_r. Qed.
Lemma says_utoa k v : 0 <= v <= 4294967295 -> opt_range k v -> says (keyword k, utoa 16 v) k v.
Proof. intros H R. split; [reflexivity|]. split; [exact (proj1 (utoa_spec v H))|exact R]. Qed.
Lemma utoa_bytes v : 0 <= v <= 4294967295 -> Forall byte (utoa 16 v).
Proof. intros H. destruct (utoa_spec v H) as ((_ & D & _) & _). eapply Forall_impl; [|exact D]. cbn. unfold byte. intros; lia. Qed.
Lemma kw_bytes k : Forall byte (keyword k).
Proof. destruct k; repeat (apply Forall_cons; [unfold byte; lia|]); apply Forall_nil. Qed.
Lemma cstr_bytes s : Forall byte s -> Forall byte (cstr s).
Proof. intros H. apply Forall_app. split; [exact H|]. apply Forall_cons; [unfold byte; lia|apply Forall_nil]. Qed.
Lemma optl_bytes cond k v : 0 <= v <= 4294967295 -> Forall byte (flat_map wire (optl cond (keyword k) v)).
Proof. intros H. unfold optl. destruct cond; [|apply Forall_nil]. cbn [flat_map]. rewrite app_nil_r. apply Forall_app. split; apply cstr_bytes; [apply kw_bytes|apply utoa_bytes; assumption]. Qed.
Lemma given_optl k os cond k' v : 0 <= v <= 4294967295 -> (cond = true -> opt_range k' v) -> forall w,
  given k (os ++ optl cond (keyword k') v) w <-> if cond then (k = k' /\ w = v) \/ (k <> k' /\ given k os w) else given k os w.
Proof.
  intros H R w. unfold optl. destruct cond; [apply given_upd; apply says_utoa; auto|rewrite app_nil_r; tauto].
Qed.
Lemma given_optl_other k os cond k' v w : k <> k' -> 0 <= v <= 4294967295 -> (cond = true -> opt_range k' v) ->
  given k (os ++ optl cond (keyword k') v) w <-> given k os w.
Proof. intros N H R. rewrite given_optl by assumption. destruct cond; tauto. Qed.
Lemma given_optl_same k os cond v w : 0 <= v <= 4294967295 -> (cond = true -> opt_range k v) ->
  given k (os ++ optl cond (keyword k) v) w <-> (cond = true /\ w = v) \/ (cond = false /\ given k os w).
Proof. intros H R. rewrite given_optl by assumption. destruct cond; intuition discriminate. Qed.
(** The values a client can ask for: RFC 2348 / 2349 ranges. *)
Definition askable (c : cfg) : Prop := (c_blksize c = 512 \/ 8 <= c_blksize c) /\ c_timeout c <= 255.

(** C33: a request built by the client, sent and parsed by the server gives back the
    opcode, the file name and exactly the options that differ from the defaults. *)
Theorem tftp_request_roundtrip : forall buf op name tail c tsize, zlen buf = 256 -> (op = 1 \/ op = 2) ->
  nonul name -> Forall byte name -> 0 < zlen name < 128 -> confined name -> cfg_ok c -> askable c -> 0 <= tsize <= 4294967295 ->
  exists buf' bits len q, build_request buf 256 op (name ++ 0 :: tail) c tsize = Some (0, (buf', bits, len)) /\ zlen buf' = 256 /\ 0 <= len <= 256 /\
    parse_request (firstn (Z.to_nat len) buf') = Some (inl q) /\
    q_op q = op /\ q_name q = name /\ q_opts q = bits /\
    q_blksize q = (if c_blksize c =? 512 then 0 else c_blksize c) /\ (Z.testbit bits 0 = true <-> c_blksize c <> 512) /\
    q_timeout q = (if c_timeout c =? 1 then 0 else c_timeout c) /\ (Z.testbit bits 1 = true <-> c_timeout c <> 1) /\
    q_window q = (if c_window c =? 1 then 0 else c_window c) /\ (Z.testbit bits 3 = true <-> c_window c <> 1) /\
    q_tsize q = tsize /\ (Z.testbit bits 2 = true <-> tsize <> 0 \/ c_maximg c <> 0).
Proof.
  intros buf op name tail c tsize Hb Ho Hn Hbn Ln Cf Hc (A1 & A2) Ht.
  destruct (build_request_spec buf op name tail c tsize Hb Ho Hn Ln Hc Ht) as (buf' & rest & E & Eb & Lb). destruct Hc as (C1 & C2 & C3 & C4).
  set (pkt := w16 op ++ cstr name ++ cstr s_octet ++ flat_map wire (wanted c tsize)) in *.
  assert (LP : 0 <= zlen pkt <= 256) by (rewrite Eb, zlen_app in Lb; pose proof (zlen_nonneg pkt); pose proof (zlen_nonneg rest); lia).
  assert (BP : Forall byte pkt).
  { unfold pkt, wanted. rewrite !flat_map_app. apply Forall_app. split; [destruct Ho as [-> | ->]; repeat (apply Forall_cons; [unfold byte; cbn; lia|]); apply Forall_nil|].
    apply Forall_app. split; [apply cstr_bytes; assumption|]. apply Forall_app. split; [apply cstr_bytes; repeat (apply Forall_cons; [unfold byte; lia|]); apply Forall_nil|].
    change s_blksize with (keyword KBlk). change s_timeout with (keyword KTmo). change s_tsize with (keyword KTsz). change s_windowsize with (keyword KWin).
    repeat (apply Forall_app; split); apply optl_bytes; lia. }
  set (q := mkReq op name (if c_blksize c =? 512 then 0 else c_blksize c) (if c_timeout c =? 1 then 0 else c_timeout c) (if c_window c =? 1 then 0 else c_window c) tsize (wanted_bits c tsize)).
  assert (G : forall k w, given k (wanted c tsize) w <-> match k with KBlk => c_blksize c <> 512 /\ w = c_blksize c | KTmo => c_timeout c <> 1 /\ w = c_timeout c | KWin => c_window c <> 1 /\ w = c_window c | KTsz => (tsize <> 0 \/ c_maximg c <> 0) /\ w = tsize end).
  { intros k w. unfold wanted. change s_blksize with (keyword KBlk). change s_timeout with (keyword KTmo). change s_tsize with (keyword KTsz). change s_windowsize with (keyword KWin).
    rewrite !app_assoc.
    assert (R1 : negb (c_blksize c =? 512) = true -> opt_range KBlk (c_blksize c)) by (cbn; lia). assert (R2 : negb (c_timeout c =? 1) = true -> opt_range KTmo (c_timeout c)) by (cbn; lia).
    assert (R3 : (1 <? c_window c) = true -> opt_range KWin (c_window c)) by (cbn; lia). assert (R4 : negb (tsize =? 0) || negb (c_maximg c =? 0) = true -> opt_range KTsz tsize) by (cbn; lia).
    pose proof (given_nil k w) as GN.
    destruct k; repeat first [rewrite given_optl_other by (first [discriminate|assumption|lia])|rewrite given_optl_same by (first [assumption|lia])];
      try (rewrite <- (app_nil_l (optl (negb (c_blksize c =? 512)) _ _)); first [rewrite given_optl_other by (first [discriminate|assumption|lia])|rewrite given_optl_same by (first [assumption|lia])]);
      (split; [intros [[B ->]|[B N]]; [split; [lia|reflexivity]|exfalso; exact (GN N)]|intros [B ->]; left; split; [lia|reflexivity]]). }
  assert (Bits : 0 <= wanted_bits c tsize < 16 /\ (Z.testbit (wanted_bits c tsize) 0 = true <-> c_blksize c <> 512) /\ (Z.testbit (wanted_bits c tsize) 1 = true <-> c_timeout c <> 1) /\ (Z.testbit (wanted_bits c tsize) 3 = true <-> c_window c <> 1) /\ (Z.testbit (wanted_bits c tsize) 2 = true <-> tsize <> 0 \/ c_maximg c <> 0)).
  { unfold wanted_bits. destruct (negb (c_blksize c =? 512)) eqn:Q4, (negb (c_timeout c =? 1)) eqn:Q3, (1 <? c_window c) eqn:Q2, (negb (tsize =? 0) || negb (c_maximg c =? 0)) eqn:Q1;
      (split; [vm_compute; split; congruence|]); repeat match goal with |- _ /\ _ => split end; (split; intros X; [try (vm_compute in X; discriminate); lia|first [reflexivity|exfalso; lia]]). }
  destruct Bits as (R & Bt1 & Bt2 & Bt3 & Bt4).
  assert (H : holds q (wanted c tsize)).
  { split; [exact R|]. intros k. specialize (G k). split; [|split].
    - intros v Gv. apply G in Gv. destruct k; cbn [val q q_blksize q_timeout q_tsize q_window]; destruct Gv as [N ->]; try reflexivity; match goal with |- (if ?b then _ else _) = _ => destruct b eqn:?; [exfalso; lia|reflexivity] end.
    - intros M. destruct k; cbn [val q q_blksize q_timeout q_tsize q_window].
      + destruct (Z.eqb_spec (c_blksize c) 512); [reflexivity|]. exfalso. apply M. exists (c_blksize c). apply G. auto.
      + destruct (Z.eqb_spec (c_timeout c) 1); [reflexivity|]. exfalso. apply M. exists (c_timeout c). apply G. auto.
      + destruct (Z.eq_dec tsize 0); [assumption|]. exfalso. apply M. exists tsize. apply G. auto.
      + destruct (Z.eqb_spec (c_window c) 1); [reflexivity|]. exfalso. apply M. exists (c_window c). apply G. auto.
    - unfold mentioned. cbn [q q_opts]. destruct k; cbn [bit_of]; [rewrite Bt1|rewrite Bt2|rewrite Bt4|rewrite Bt3]; (split; [intros X; eexists; apply G; split; [exact X|reflexivity]|intros [v X]; apply G in X; tauto]). }
  assert (Rq : request pkt op name (wanted c tsize)).
  { exists s_octet. repeat (split; [solve [assumption|reflexivity]|]). split; [|reflexivity]. unfold wanted. intros kv I. apply in_app_or in I.
    assert (O : forall cond k v, 0 <= v <= 4294967295 -> (cond = true -> opt_range k v) -> In kv (optl cond (keyword k) v) -> exists k0 v0, says kv k0 v0).
    { intros cond k v H1 H2 I2. unfold optl in I2. destruct cond; [|destruct I2]. destruct I2 as [<-|[]]. exists k, v. apply says_utoa; auto. }
    change s_blksize with (keyword KBlk) in I. change s_timeout with (keyword KTmo) in I. change s_tsize with (keyword KTsz) in I. change s_windowsize with (keyword KWin) in I.
    destruct I as [I|I]; [eapply O; [| |exact I]; cbn; lia|]. apply in_app_or in I. destruct I as [I|I]; [eapply O; [| |exact I]; cbn; lia|]. apply in_app_or in I. destruct I as [I|I]; (eapply O; [| |exact I]; cbn; lia). }
  exists buf', (wanted_bits c tsize), (zlen pkt), q. split; [exact E|]. split; [exact Lb|]. split; [exact LP|].
  assert (FP : firstn (Z.to_nat (zlen pkt)) buf' = pkt) by (rewrite Eb; apply firstn_zlen_app). rewrite FP.
  split; [apply (proj2 (tftp_request_parse_exact pkt BP ltac:(lia))); exists (wanted c tsize); split; assumption|].
  repeat (split; [first [reflexivity|assumption]|]). exact Bt4.
Qed.
Print Assumptions tftp_request_roundtrip.

(** ** Option acknowledgements *)
(** The values after an OACK: those given, and the client's own for the others. *)
Definition negotiated (g0 g : neg) (os : list (list Z * list Z)) : Prop :=
  (forall k v, given k os v -> nval g k = v) /\ (forall k, ~ mentioned k os -> nval g k = nval g0 k) /\
  (n_have g = true <-> n_have g0 = true \/ mentioned KTsz os).
Lemma updn_val q k v k' : nval (updn q k v) k' = if kind_dec k' k then v else nval q k'.
Proof. destruct k, k'; reflexivity. Qed.
Lemma applied_negotiated ok os g0 g : applied updn ok os g0 g -> negotiated g0 g os.
Proof.
  revert g. induction os as [|kv os IH] using rev_ind; intros g H.
  - inversion H; subst. split; [intros k v G; apply given_nil in G; tauto|]. split; [reflexivity|]. split; [auto|]. intros [X|[v G]]; [exact X|apply given_nil in G; tauto].
  - apply applied_snoc_inv in H. destruct H as (q1 & k & v & A & S & _ & ->). destruct (IH q1 A) as (F1 & F2 & F3). split; [|split].
    + intros k' w G. rewrite updn_val. apply (given_upd os kv k v S) in G. destruct G as [[-> ->]|[N G]]; [destruct (kind_dec k k); congruence|]. destruct (kind_dec k' k); [congruence|apply F1; assumption].
    + intros k' M. rewrite updn_val. destruct (kind_dec k' k) as [->|N]; [exfalso; apply M; exists v; apply given_here; assumption|]. apply F2. intros [w G]. apply M. exists w. apply (given_upd os kv k v S). tauto.
    + unfold mentioned in *. destruct k; cbn [updn n_have]; rewrite ?F3; try (split; intros [X|[w X]]; [auto| |auto|]; right; exists w; apply (given_upd os kv _ v S) in X || apply (given_upd os kv _ v S); first [right; split; [discriminate|exact X]|destruct X as [[? ?]|[? ?]]; [discriminate|assumption]]).
      split; [|reflexivity]. intros _. right. exists v. apply given_here. exact S.
Qed.
Lemma parse_oack_spec buf g0 req : Forall byte buf ->
  exists s, parse_oack buf g0 req = Some s /\
    match s with
    | inl g => exists os, option_ack buf (asked req) os /\ applied updn (asked req) os g0 g
    | inr e => (e = ERR_PACKET \/ e = ERR_UNSUPPORTED) /\ ~ exists os, option_ack buf (asked req) os
    end.
Proof.
  intros Hb. unfold parse_oack. destruct (Z.ltb_spec (zlen buf) 2) as [L|L].
  { eexists. split; [reflexivity|]. split; [left; reflexivity|]. intros (os & _ & ->). rewrite zlen_app in L. change (zlen (w16 6)) with 2 in L. pose proof (zlen_nonneg (flat_map wire os)). lia. }
  destruct buf as [|b0 [|b1 rest]]; [cbn in L; lia|cbn in L; lia|].
  assert (B0 : rd1 (b0 :: b1 :: rest) 0 = Some b0) by (pose proof (rd1_at [] (b1 :: rest) b0) as R; exact R).
  assert (B1 : rd1 (b0 :: b1 :: rest) 1 = Some b1) by (pose proof (rd1_at [b0] rest b1) as R; exact R).
  unfold read_u16. change (0 + 1) with 1. rewrite B0, B1. cbn [obind]. pose proof (Forall_inv Hb) as Hb0. pose proof (Forall_inv (Forall_inv_tail Hb)) as Hb1. pose proof (Forall_inv_tail (Forall_inv_tail Hb)) as Hr.
  assert (W : forall x, b0 :: b1 :: rest = w16 6 ++ x -> 256 * b0 + b1 = 6 /\ rest = x).
  { intros x E. unfold w16 in E. cbn in E. injection E as -> -> ->. split; [lia|reflexivity]. }
  destruct (Z.eqb_spec (256 * b0 + b1) OP_OACK) as [O|O]; cbn [negb]; unfold OP_OACK in O.
  2:{ eexists. split; [reflexivity|]. split; [left; reflexivity|]. intros (os & _ & E). apply W in E. lia. }
  unfold byte in Hb0, Hb1. assert (b0 = 0 /\ b1 = 6) as [-> ->] by lia.
  destruct (oack_options_spec (length (0 :: 6 :: rest)) rest [0; 6] req g0 Hr) as (s & E & R); [cbn; lia|]. change ([0; 6] ++ rest) with (0 :: 6 :: rest) in E. change (zlen [0; 6]) with 2 in E. rewrite E.
  exists s. split; [reflexivity|]. destruct s as [g|e].
  - destruct R as (os & -> & A). exists os. split; [|exact A]. split; [|reflexivity]. intros kv I. exact (applied_ok _ _ _ _ _ _ A kv I).
  - destruct R as (Q & R). split; [exact Q|]. intros (os & P & Eo). apply R. apply W in Eo. exists os. tauto.
Qed.

(** C33: an OACK is accepted exactly when it is well formed and every option in it was
    requested, and then only those options take new (in-range) values. *)
Theorem tftp_oack_parse_exact : forall buf g0 req, Forall byte buf ->
  (exists r, parse_oack buf g0 req = Some r /\ (forall e, r = inr e -> e = ERR_PACKET \/ e = ERR_UNSUPPORTED)) /\
  (forall g, parse_oack buf g0 req = Some (inl g) <-> exists os, option_ack buf (asked req) os /\ negotiated g0 g os).
Proof.
  intros buf g0 req Hb. destruct (parse_oack_spec buf g0 req Hb) as (s & E & R). split.
  - exists s. split; [exact E|]. intros e ->. tauto.
  - intros g. rewrite E. split.
    + intros [= ->]. destruct R as (os & R & A). exists os. split; [exact R|]. eapply applied_negotiated; exact A.
    + intros (os & Ro & N). destruct s as [g'|e]; [|exfalso; apply (proj2 R); eauto]. destruct R as (os' & (P' & Eb') & A). destruct Ro as (P & Eb).
      assert (X : flat_map wire os = flat_map wire os') by (apply (app_inv_head (w16 6)); congruence).
      assert (Q : forall l, (forall kv, In kv l -> exists k v, says kv k v /\ asked req k) -> forall kv, In kv l -> exists k v, says kv k v) by (intros l Hx kv I; destruct (Hx kv I) as (k & v & S & _); eauto).
      assert (os = os') as <- by (apply wire_cons_inj; [assumption|apply Q; assumption|apply Q; assumption]).
      apply applied_negotiated in A. destruct A as (A1 & A2 & A3), N as (N1 & N2 & N3).
      assert (V : forall k, nval g' k = nval g k) by (intros k; destruct (mentioned_dec os (Q os P) k) as [[v G]|M]; [rewrite (A1 k v G), (N1 k v G)|rewrite (A2 k M), (N2 k M)]; reflexivity).
      assert (Hh : n_have g' = n_have g). { destruct (n_have g'), (n_have g); try reflexivity; [symmetry; apply N3, A3; reflexivity|apply A3, N3; reflexivity]. }
      f_equal. f_equal. destruct g', g. pose proof (V KBlk). pose proof (V KTmo). pose proof (V KTsz). pose proof (V KWin). cbn in *. subst. reflexivity.
Qed.
Print Assumptions tftp_oack_parse_exact.

Definition acked (g : neg) (opts : Z) : list (list Z * list Z) :=
  optl (Z.testbit opts 0) s_blksize (n_blksize g) ++ optl (Z.testbit opts 1) s_timeout (n_timeout g) ++
  optl (Z.testbit opts 2) s_tsize (n_tsize g) ++ optl (Z.testbit opts 3) s_windowsize (n_window g).
Lemma land_bit opts b : 0 <= b -> negb (Z.land opts (2 ^ b) =? 0) = Z.testbit opts b.
Proof.
  intros H.
  destruct (Z.testbit opts b) eqn:E.
  - destruct (Z.eqb_spec (Z.land opts (2 ^ b)) 0) as [X|]; [|reflexivity]. exfalso.
    assert (Y : Z.testbit (Z.land opts (2 ^ b)) b = true) by (rewrite Z.land_spec, E, Z.pow2_bits_true by assumption; reflexivity). rewrite X, Z.bits_0 in Y. discriminate.
  - destruct (Z.eqb_spec (Z.land opts (2 ^ b)) 0) as [X|X]; [reflexivity|]. exfalso. apply X. apply Z.bits_inj'. intros i Hi. rewrite Z.land_spec, Z.bits_0, Z.pow2_bits_eqb by assumption.
    destruct (Z.eqb_spec b i); [subst; rewrite E; reflexivity|apply andb_false_r].
Qed.
Definition neg_ok (g : neg) (opts : Z) : Prop :=
  (Z.testbit opts 0 = true -> 8 <= n_blksize g) /\ n_blksize g <= 1428 /\ 0 <= n_blksize g /\
  (Z.testbit opts 1 = true -> 1 <= n_timeout g <= 255) /\ 0 <= n_timeout g <= 65535 /\
  0 <= n_tsize g <= 4294967295 /\ 1 <= n_window g <= 8.
Lemma build_oack_spec buf g opts : zlen buf = 1432 -> neg_ok g opts ->
  build_oack buf 1432 g opts = Some (inl (w16 6 ++ flat_map wire (acked g opts))).
Proof.
  intros Hb (N1 & N2 & N3 & N4 & N5 & N6 & N7). unfold build_oack, OPT_BLKSIZE, OPT_TIMEOUT, OPT_TSIZE, OPT_WINDOWSIZE.
  change (enc16 OP_OACK) with (w16 6). destruct (split_at buf 2) as (r0 & r1 & -> & L0 & L1); [lia|].
  rewrite (mwrite_eq (r0 ++ r1) [] r0 r1 (w16 6) 0 (w16 6 ++ r1)) by (rewrite ?L0; reflexivity). cbn [obind].
  change (negb (Z.land opts 1 =? 0)) with (negb (Z.land opts (2 ^ 0) =? 0)). change (negb (Z.land opts 2 =? 0)) with (negb (Z.land opts (2 ^ 1) =? 0)).
  change (negb (Z.land opts 4 =? 0)) with (negb (Z.land opts (2 ^ 2) =? 0)). change (negb (Z.land opts 8 =? 0)) with (negb (Z.land opts (2 ^ 3) =? 0)). rewrite !land_bit by lia.
  destruct (utoa_spec (n_blksize g) ltac:(lia)) as (_ & U1 & _). destruct (utoa_spec (n_timeout g) ltac:(lia)) as (_ & U2 & _). destruct (utoa_spec (n_tsize g) ltac:(lia)) as (_ & U3 & _). destruct (utoa_spec (n_window g) ltac:(lia)) as (_ & U4 & _).
  unfold acked. rewrite !flat_map_app. set (k1 := Z.testbit opts 0). set (k2 := Z.testbit opts 1). set (k3 := Z.testbit opts 2). set (k4 := Z.testbit opts 3).
  pose proof (optl_len k1 s_blksize (n_blksize g) 10 ltac:(lia) U1) as (W1 & _). pose proof (optl_len k2 s_timeout (n_timeout g) 10 ltac:(lia) U2) as (W2 & _). pose proof (optl_len k3 s_tsize (n_tsize g) 10 ltac:(lia) U3) as (W3 & _).
  change (zlen s_blksize) with 7 in W1. change (zlen s_timeout) with 7 in W2. change (zlen s_tsize) with 5 in W3.
  change (w16 6 ++ r1, 2, 0, 0) with (w16 6 ++ r1, zlen (w16 6), 0, 0).
  assert (D0 : zlen (w16 6) = 2) by reflexivity. set (d0 := w16 6) in *. rewrite zlen_app in Hb.
  destruct (maybe_opt_spec k1 s_blksize (n_blksize g) 1 d0 0 (d0 ++ r1) r1 1432) as (bf1 & x1 & E1 & Z1 & S1); [rewrite zlen_app; lia|lia|reflexivity|intros; change (zlen s_blksize) with 7; lia|].
  rewrite E1. cbn [obind].
  match goal with |- context [maybe_opt k2 s_timeout (n_timeout g) 2 1432 (bf1, _, ?o, 0)] => destruct (maybe_opt_spec k2 s_timeout (n_timeout g) 2 _ o bf1 x1 1432 Z1 ltac:(lia) S1) as (bf2 & x2 & E2 & Z2 & S2) end; [intros; rewrite !zlen_app; change (zlen s_timeout) with 7; lia|].
  rewrite E2. cbn [obind].
  match goal with |- context [maybe_opt k3 s_tsize (n_tsize g) 4 1432 (bf2, _, ?o, 0)] => destruct (maybe_opt_spec k3 s_tsize (n_tsize g) 4 _ o bf2 x2 1432 Z2 ltac:(lia) S2) as (bf3 & x3 & E3 & Z3 & S3) end; [intros; rewrite !zlen_app; change (zlen s_tsize) with 5; lia|].
  rewrite E3. cbn [obind].
  match goal with |- context [maybe_opt k4 s_windowsize (n_window g) 8 1432 (bf3, _, ?o, 0)] => destruct (maybe_opt_spec k4 s_windowsize (n_window g) 8 _ o bf3 x3 1432 Z3 ltac:(lia) S3) as (bf4 & x4 & E4 & Z4 & S4) end; [intros; rewrite !zlen_app; change (zlen s_windowsize) with 10; lia|].
  rewrite E4. cbn [obind]. change (negb (0 =? 0)) with false. cbv iota. rewrite S4. rewrite mread_pre by reflexivity. cbn [obind]. rewrite <- !app_assoc. reflexivity.
Qed.
Lemma asked_bit req k : asked req k <-> Z.testbit req (bit_of k) = true.
Proof.
  unfold asked. pose proof (land_bit req (bit_of k) ltac:(pose proof (bit_range k); lia)) as L. rewrite <- L. split; intros; lia.
Qed.
(** C33: the OACK a server builds gives the client exactly the server's values of the
    acknowledged options, if the client had asked for them. *)
Theorem tftp_oack_roundtrip : forall buf g opts g0 req, zlen buf = 1432 -> neg_ok g opts ->
  (forall k, Z.testbit opts (bit_of k) = true -> Z.testbit req (bit_of k) = true) ->
  exists pkt g', build_oack buf 1432 g opts = Some (inl pkt) /\ zlen pkt <= 1432 /\ parse_oack pkt g0 req = Some (inl g') /\
    forall k, nval g' k = if Z.testbit opts (bit_of k) then nval g k else nval g0 k.
Proof.
  intros buf g opts g0 req Hb Hn Hr. rewrite (build_oack_spec buf g opts Hb Hn). eexists _, _. split; [reflexivity|]. destruct Hn as (N1 & N2 & N3 & N4 & N5 & N6 & N7).
  set (os := acked g opts).
  destruct (utoa_spec (n_blksize g) ltac:(lia)) as (_ & U1 & _). destruct (utoa_spec (n_timeout g) ltac:(lia)) as (_ & U2 & _). destruct (utoa_spec (n_tsize g) ltac:(lia)) as (_ & U3 & _). destruct (utoa_spec (n_window g) ltac:(lia)) as (_ & U4 & _).
  assert (R1 : Z.testbit opts 0 = true -> opt_range KBlk (n_blksize g)) by (cbn; intros X; specialize (N1 X); lia).
  assert (R2 : Z.testbit opts 1 = true -> opt_range KTmo (n_timeout g)) by (cbn; intros X; specialize (N4 X); lia).
  assert (R3 : Z.testbit opts 2 = true -> opt_range KTsz (n_tsize g)) by (cbn; lia).
  assert (R4 : Z.testbit opts 3 = true -> opt_range KWin (n_window g)) by (cbn; lia).
  split.
  { unfold os, acked. rewrite !flat_map_app, !zlen_app. pose proof (proj1 (optl_len (Z.testbit opts 0) s_blksize (n_blksize g) 10 ltac:(lia) U1)) as W1. pose proof (proj1 (optl_len (Z.testbit opts 1) s_timeout (n_timeout g) 10 ltac:(lia) U2)) as W2.
    pose proof (proj1 (optl_len (Z.testbit opts 2) s_tsize (n_tsize g) 10 ltac:(lia) U3)) as W3. pose proof (proj1 (optl_len (Z.testbit opts 3) s_windowsize (n_window g) 10 ltac:(lia) U4)) as W4.
    change (zlen s_blksize) with 7 in W1. change (zlen s_timeout) with 7 in W2. change (zlen s_tsize) with 5 in W3. change (zlen s_windowsize) with 10 in W4. change (zlen (w16 6)) with 2. lia. }
  assert (BP : Forall byte (w16 6 ++ flat_map wire os)).
  { unfold os, acked. rewrite !flat_map_app. apply Forall_app. split; [repeat (apply Forall_cons; [unfold byte; cbn; lia|]); apply Forall_nil|].
    change s_blksize with (keyword KBlk). change s_timeout with (keyword KTmo). change s_tsize with (keyword KTsz). change s_windowsize with (keyword KWin).
    repeat (apply Forall_app; split); apply optl_bytes; lia. }
  assert (G : forall k w, given k os w <-> Z.testbit opts (bit_of k) = true /\ w = nval g k).
  { intros k w. unfold os, acked. change s_blksize with (keyword KBlk). change s_timeout with (keyword KTmo). change s_tsize with (keyword KTsz). change s_windowsize with (keyword KWin). rewrite !app_assoc.
    pose proof (given_nil k w) as GN.
    destruct k; repeat first [rewrite given_optl_other by (first [discriminate|assumption|lia])|rewrite given_optl_same by (first [assumption|lia])];
      try (rewrite <- (app_nil_l (optl (Z.testbit opts 0) _ _)); first [rewrite given_optl_other by (first [discriminate|assumption|lia])|rewrite given_optl_same by (first [assumption|lia])]);
      (split; [intros [[B ->]|[B N]]; [split; [assumption|reflexivity]|exfalso; exact (GN N)]|intros [B ->]; left; split; [assumption|reflexivity]]). }
  assert (Ok : option_ack (w16 6 ++ flat_map wire os) (asked req) os).
  { split; [|reflexivity]. intros kv I.
    assert (O : forall k v, 0 <= v <= 4294967295 -> (Z.testbit opts (bit_of k) = true -> opt_range k v) -> In kv (optl (Z.testbit opts (bit_of k)) (keyword k) v) -> exists k0 v0, says kv k0 v0 /\ asked req k0).
    { intros k v H1 H2 I2. unfold optl in I2. destruct (Z.testbit opts (bit_of k)) eqn:T; [|destruct I2]. destruct I2 as [<-|[]]. exists k, v. split; [apply says_utoa; auto|]. apply asked_bit. apply Hr. exact T. }
    unfold os, acked in I. apply in_app_or in I. destruct I as [I|I]; [apply (O KBlk) in I; [exact I|lia|exact R1]|]. apply in_app_or in I. destruct I as [I|I]; [apply (O KTmo) in I; [exact I|lia|exact R2]|].
    apply in_app_or in I. destruct I as [I|I]; [apply (O KTsz) in I; [exact I|lia|exact R3]|apply (O KWin) in I; [exact I|lia|exact R4]]. }
  set (g' := mkNeg (if Z.testbit opts 0 then n_blksize g else n_blksize g0) (if Z.testbit opts 1 then n_timeout g else n_timeout g0) (if Z.testbit opts 3 then n_window g else n_window g0) (if Z.testbit opts 2 then n_tsize g else n_tsize g0) (n_have g0 || Z.testbit opts 2)).
  split; [apply (proj2 (tftp_oack_parse_exact _ g0 req BP)) with (g := g'); exists os; split; [exact Ok|]|].
  - split; [|split].
    + intros k v Gv. apply G in Gv. destruct Gv as [T ->]. destruct k; cbn [nval g' n_blksize n_timeout n_tsize n_window bit_of] in *; rewrite T; reflexivity.
    + intros k M. assert (T : Z.testbit opts (bit_of k) = false) by (destruct (Z.testbit opts (bit_of k)) eqn:T; [exfalso; apply M; exists (nval g k); apply G; auto|reflexivity]).
      destruct k; cbn [nval g' n_blksize n_timeout n_tsize n_window bit_of] in *; rewrite T; reflexivity.
    + cbn [g' n_have]. rewrite orb_true_iff. unfold mentioned. split; (intros [X|X]; [left; exact X|right]); [exists (n_tsize g); apply G; auto|destruct X as [v X]; apply G in X; exact (proj1 X)].
  - intros []; reflexivity.
Qed.
Print Assumptions tftp_oack_roundtrip.

(** ** Examples *)
(** RRQ "fw.bin", mode "OCTET", blksize 1024, tsize 0 *)
Definition ex_rrq : list Z := [0; 1; 102; 119; 46; 98; 105; 110; 0; 79; 67; 84; 69; 84; 0; 98; 108; 107; 115; 105; 122; 101; 0; 49; 48; 50; 52; 0; 116; 115; 105; 122; 101; 0; 48; 0].
Example tftp_request_parse_exact_ex : parse_request ex_rrq = Some (inl (mkReq 1 [102; 119; 46; 98; 105; 110] 1024 0 0 0 5)).
Proof. vm_compute. reflexivity. Qed.
(** "../etc", "a/../b", "C:x", "/x" are refused; "a..b/c" is accepted *)
Example confined_ex : map (fun n => parse_request ([0; 1] ++ n ++ [0; 111; 99; 116; 101; 116; 0]))
    [[46; 46; 47; 101; 116; 99]; [97; 47; 46; 46; 47; 98]; [67; 58; 120]; [47; 120]; [97; 46; 46; 98; 47; 99]] =
  [Some (inr ERR_PACKET); Some (inr ERR_PACKET); Some (inr ERR_PACKET); Some (inr ERR_PACKET); Some (inl (mkReq 1 [97; 46; 46; 98; 47; 99] 0 0 0 0 0))].
Proof. vm_compute. reflexivity. Qed.
(** An option value that is not NUL-terminated inside the packet *)
Example unterminated_ex : parse_request (firstn 27 ex_rrq) = Some (inr ERR_PACKET).
Proof. vm_compute. reflexivity. Qed.
Example tftp_request_roundtrip_ex :
  match build_request (repeat 0 256) 256 1 [102; 119; 0] (mkCfg 5000 1024 3 4 5 100000) 0 with
  | Some (0, (b, _, l)) => parse_request (firstn (Z.to_nat l) b) | _ => None end = Some (inl (mkReq 1 [102; 119] 1024 3 4 0 15)).
Proof. vm_compute. reflexivity. Qed.
Example tftp_oack_roundtrip_ex :
  match build_oack (repeat 0 1432) 1432 (mkNeg 1024 3 4 77 true) 15 with
  | Some (inl p) => parse_oack p (mkNeg 512 1 1 0 false) 15 | _ => None end = Some (inl (mkNeg 1024 3 4 77 true)).
Proof. vm_compute. reflexivity. Qed.

(** RFC 2348: the acknowledged block size must not exceed the requested one. The client
    that asked for 600 takes 1428. *)
Theorem tftp_oack_within_request_refuted :
  exists pkt g, parse_oack pkt (mkNeg 600 1 1 0 false) 1 = Some (inl g) /\ n_blksize g = 1428.
Proof. exists ([0; 6] ++ s_blksize ++ [0; 49; 52; 50; 56; 0]). eexists. split; [vm_compute; reflexivity|reflexivity]. Qed.
(** A client configured with a timeout above 255 s (or a block size below 8) builds
    a request its own server refuses. *)
Theorem tftp_request_refused_by_peer_refuted :
  match build_request (repeat 0 256) 256 1 [102; 119; 0] (cfg_defaults (mkCfg 5000 0 300 0 0 0)) 0 with
  | Some (0, (b, _, l)) => parse_request (firstn (Z.to_nat l) b) | _ => None end = Some (inr ERR_UNSUPPORTED).
Proof. vm_compute. reflexivity. Qed.
