(** Proofs about TFTP packet codecs. *)
From Verif Require Import Base ListUtil Bits HttpUrl ForwardProofs TftpCodec TftpCodecSpec.
Local Ltac Zify.zify_post_hook ::= idtac.

Lemma rd1_at (a b : list Z) x : rd1 (a ++ x :: b) (zlen a) = Some x.
Proof. unfold rd1. change (a ++ x :: b) with (a ++ [x] ++ b). change 1 with (zlen [x]). rewrite mread_app. reflexivity. Qed.

(** ** Cutting at the first 0 *)
Fixpoint cut (l : list Z) : list Z * option (list Z) :=
  match l with
  | [] => ([], None)
  | c :: r => if c =? 0 then ([], Some r) else let '(w, o) := cut r in (c :: w, o)
  end.
Lemma cut_spec l : let '(w, o) := cut l in
  nonul w /\ match o with Some r => l = w ++ 0 :: r | None => l = w end.
Proof.
  induction l as [|c l IH]; cbn [cut]; [split; [apply Forall_nil|reflexivity]|].
  destruct (Z.eqb_spec c 0); [subst; split; [apply Forall_nil|reflexivity]|].
  destruct (cut l) as [w o]. destruct IH as [A B]. split; [apply Forall_cons; assumption|]. destruct o; cbn; congruence.
Qed.
Lemma cut_app w r : nonul w -> cut (w ++ 0 :: r) = (w, Some r).
Proof. induction w as [|c w IH]; intros H; cbn [app cut]; [reflexivity|]. inversion H; subst. destruct (Z.eqb_spec c 0); [tauto|]. rewrite IH by assumption. reflexivity. Qed.
Lemma strnlen_cut : forall rest pre, strnlen (length rest) (pre ++ rest) (zlen pre) = Some (zlen (fst (cut rest))).
Proof.
  induction rest as [|c r IH]; intros pre; [reflexivity|]. cbn [length strnlen cut]. rewrite rd1_at. cbn [obind].
  destruct (Z.eqb_spec c 0); [reflexivity|]. specialize (IH (pre ++ [c])). rewrite <- app_assoc, zlen_app in IH. cbn [app] in IH.
  change (zlen [c]) with 1 in IH. rewrite IH. cbn [obind]. destruct (cut r) as [w o]. cbn [fst]. rewrite zlen_cons. reflexivity.
Qed.
Lemma strnlen_at pre rest n p : n = Z.of_nat (length rest) -> p = zlen pre -> strnlen (Z.to_nat n) (pre ++ rest) p = Some (zlen (fst (cut rest))).
Proof. intros -> ->. rewrite Nat2Z.id. apply strnlen_cut. Qed.

(** ** Comparing with a keyword *)
Lemma lower_zero a : (lower a = 0) <-> a = 0.
Proof. unfold lower. destruct ((65 <=? a) && (a <=? 90)) eqn:E; lia. Qed.
Lemma striceq_spec : forall lit w pre r, nonul w -> nonul lit ->
  exists b, striceq (pre ++ w ++ 0 :: r) (zlen pre) lit = Some b /\ (b = true <-> nocase w lit).
Proof.
  unfold nocase. induction lit as [|x lit IH]; intros w pre r Hw Hl; cbn [striceq].
  - destruct w as [|a w]; cbn [app]; rewrite rd1_at; cbn [obind].
    + eexists. split; [reflexivity|]. cbn. tauto.
    + eexists. split; [reflexivity|]. inversion Hw; subst. change tolower with lower. pose proof (lower_zero a). cbn [map]. split; [intros; exfalso; lia|discriminate].
  - inversion Hl; subst. destruct w as [|a w]; cbn [app]; rewrite rd1_at; cbn [obind]; change tolower with lower.
    + pose proof (lower_zero x). change (lower 0) with 0; replace (0 =? lower x) with false by (symmetry; apply Z.eqb_neq; intros Q0; symmetry in Q0; apply H in Q0; tauto). eexists. split; [reflexivity|]. cbn [map]. split; discriminate.
    + inversion Hw; subst. destruct (Z.eqb_spec (lower a) (lower x)).
      * specialize (IH w (pre ++ [a]) r H4 H2). rewrite <- app_assoc, zlen_app in IH. cbn [app] in IH. change (zlen [a]) with 1 in IH.
        destruct IH as (b & E & F). exists b. split; [exact E|]. rewrite F. cbn [map]. split; intros; congruence.
      * eexists. split; [reflexivity|]. cbn [map]. split; intros; congruence.
Qed.

(** ** Numerals *)
Lemma decval_app a c : decval (a ++ [c]) = 10 * decval a + (c - 48).
Proof. unfold decval. rewrite fold_left_app. reflexivity. Qed.
Lemma decval_nonneg a : digits a -> 0 <= decval a.
Proof. induction a as [|c a IH] using rev_ind; intros H; [cbn; lia|]. apply Forall_app in H. destruct H as [A B]. inversion B; subst. rewrite decval_app. specialize (IH A). lia. Qed.
Lemma decval_mono a b : digits (a ++ b) -> decval a <= decval (a ++ b).
Proof.
  induction b as [|c b IH] using rev_ind; intros H; [rewrite app_nil_r; lia|].
  rewrite app_assoc in *. apply Forall_app in H. destruct H as [A B]. inversion B; subst. rewrite decval_app. specialize (IH A).
  pose proof (decval_nonneg _ A). lia.
Qed.
Lemma parse_digits_spec max : 0 <= max <= 4294967295 -> forall w fuel done pre r, nonul w -> Forall byte w -> digits done -> decval done <= max ->
  (length w < fuel)%nat ->
  exists o, parse_digits fuel (pre ++ w ++ 0 :: r) (zlen pre) (decval done) max = Some o /\
    (forall v, o = Some v <-> digits w /\ decval (done ++ w) = v /\ v <= max).
Proof.
  intros Hm. induction w as [|c w IH]; intros fuel done pre r Hw Hb Hd Hv Hf; (destruct fuel as [|fuel]; [cbn in Hf; lia|]); cbn [parse_digits app]; rewrite rd1_at; cbn [obind].
  - cbn. eexists. split; [reflexivity|]. intros v. rewrite app_nil_r. split.
    + intros [= <-]. repeat split; auto. apply Forall_nil.
    + intros (_ & <- & _). reflexivity.
  - inversion Hw; inversion Hb; subst. destruct (Z.eqb_spec c 0); [tauto|].
    destruct ((c <? 48) || (57 <? c)) eqn:E1.
    { eexists. split; [reflexivity|]. intros v. split; [discriminate|]. intros (D & _). inversion D; subst. lia. }
    pose proof (decval_nonneg _ Hd).
    assert (Dc : digits (done ++ [c])) by (apply Forall_app; split; [assumption|]; apply Forall_cons; [lia|apply Forall_nil]).
    assert (Q : (4294967295 - (c - 48)) / 10 < decval done <-> 4294967295 < decval (done ++ [c])).
    { rewrite decval_app. pose proof (Z.div_mod (4294967295 - (c - 48)) 10 ltac:(lia)). pose proof (Z.mod_pos_bound (4294967295 - (c - 48)) 10 ltac:(lia)). lia. }
    assert (Big : max < decval (done ++ [c]) -> forall v, None = Some v <-> digits (c :: w) /\ decval (done ++ c :: w) = v /\ v <= max).
    { intros B v. split; [discriminate|]. intros (D & E & F). subst v.
      assert (D2 : digits ((done ++ [c]) ++ w)) by (rewrite <- app_assoc; cbn [app]; apply Forall_app; split; assumption).
      pose proof (decval_mono (done ++ [c]) w D2) as MM. rewrite <- app_assoc in MM. cbn [app] in MM. lia. }
    destruct (Z.ltb_spec ((4294967295 - (c - 48)) / 10) (decval done)).
    { eexists. split; [reflexivity|]. apply Big. lia. }
    assert (V : u32 (decval done * 10 + (c - 48)) = decval (done ++ [c])).
    { rewrite decval_app in *. unfold u32. rewrite Z.mod_small by lia. lia. }
    rewrite V. destruct (Z.ltb_spec max (decval (done ++ [c]))).
    { eexists. split; [reflexivity|]. apply Big. assumption. }
    destruct (IH fuel (done ++ [c]) (pre ++ [c]) r) as (o & E & F); try assumption; [cbn in Hf; lia|].
    rewrite <- app_assoc, zlen_app in E. cbn [app] in E. change (zlen [c]) with 1 in E. exists o. split; [exact E|].
    intros v. rewrite F. rewrite <- app_assoc. cbn [app]. split; intros (A & B & C); repeat split; auto; [apply Forall_cons; [lia|assumption]|inversion A; assumption].
Qed.
Lemma parse_u32_spec max w pre r : 0 <= max <= 4294967295 -> nonul w -> Forall byte w ->
  exists o, parse_u32 (pre ++ w ++ 0 :: r) (zlen pre) max = Some o /\ (forall v, o = Some v <-> numeral w v /\ v <= max).
Proof.
  intros Hm Hw Hb. unfold parse_u32, numeral. destruct w as [|c w].
  - cbn [app]. rewrite rd1_at. cbn. eexists. split; [reflexivity|]. intros v. split; [discriminate|]. intros ((A & _) & _). congruence.
  - cbn [app]. rewrite rd1_at. cbn [obind]. destruct (Z.eqb_spec c 0); [inversion Hw; tauto|].
    destruct (parse_digits_spec max Hm (c :: w) (S (length (pre ++ c :: w ++ 0 :: r))) [] pre r Hw Hb) as (o & E & F); [apply Forall_nil|cbn; lia|rewrite app_length; cbn; rewrite app_length; lia|].
    exists o. split; [exact E|]. intros v. rewrite F. cbn [app]. split; [intros (A & B & C)|intros ((_ & A & B) & C)]; repeat split; auto. discriminate.
Qed.

(** ** One option *)
Definition hi (k : okind) : Z := match k with KBlk => 1428 | KTmo => 255 | KTsz => 4294967295 | KWin => 8 end.
Definition upd (q : preq) (k : okind) (v : Z) : preq :=
  match k with
  | KBlk => mkReq (q_op q) (q_name q) v (q_timeout q) (q_window q) (q_tsize q) (Z.lor (q_opts q) 1)
  | KTmo => mkReq (q_op q) (q_name q) (q_blksize q) v (q_window q) (q_tsize q) (Z.lor (q_opts q) 2)
  | KTsz => mkReq (q_op q) (q_name q) (q_blksize q) (q_timeout q) (q_window q) v (Z.lor (q_opts q) 4)
  | KWin => mkReq (q_op q) (q_name q) (q_blksize q) (q_timeout q) v (q_tsize q) (Z.lor (q_opts q) 8)
  end.
Definition updn (g : neg) (k : okind) (v : Z) : neg :=
  match k with
  | KBlk => mkNeg v (n_timeout g) (n_window g) (n_tsize g) (n_have g)
  | KTmo => mkNeg (n_blksize g) v (n_window g) (n_tsize g) (n_have g)
  | KTsz => mkNeg (n_blksize g) (n_timeout g) (n_window g) v true
  | KWin => mkNeg (n_blksize g) (n_timeout g) v (n_tsize g) (n_have g)
  end.
Lemma keyword_inj a b : nocase (keyword a) (keyword b) -> a = b.
Proof. destruct a, b; intros H; try reflexivity; vm_compute in H; discriminate. Qed.
Lemma says_kind kv a b v w : says kv a v -> says kv b w -> a = b /\ v = w.
Proof.
  intros (A & (_ & _ & B) & _) (C & (_ & _ & D) & _). split; [|congruence]. apply keyword_inj. unfold nocase in *. congruence.
Qed.
Lemma kw_nonul k : nonul (keyword k).
Proof. destruct k; repeat (apply Forall_cons; [lia|]); apply Forall_nil. Qed.
Definition outcome {A} (r : A + Z) (f : okind -> Z -> A) (ok : okind -> Prop) (kv : list Z * list Z) : Prop :=
  match r with
  | inl q => exists k v, says kv k v /\ ok k /\ q = f k v
  | inr e => e = ERR_UNSUPPORTED /\ ~ exists k v, says kv k v /\ ok k
  end.

Lemma u16_small x : 0 <= x <= 65535 -> u16 x = x.
Proof. intros. unfold u16. apply Z.mod_small. lia. Qed.
Section Option.
Variables (pre k v r : list Z).
Hypotheses (Hk : nonul k) (Hv : nonul v) (Bv : Forall byte v).
Let buf := pre ++ k ++ 0 :: v ++ 0 :: r.
Let vp := zlen pre + zlen k + 1.
Lemma value_at mx : 0 <= mx <= 4294967295 -> exists o, parse_u32 buf vp mx = Some o /\ (forall x, o = Some x <-> numeral v x /\ x <= mx).
Proof.
  intros H. destruct (parse_u32_spec mx v (pre ++ k ++ [0]) r H Hv Bv) as (o & E & F). exists o. split; [|exact F].
  rewrite <- E. unfold buf, vp. rewrite <- !app_assoc. cbn [app]. f_equal. rewrite !zlen_app. change (zlen [0]) with 1. lia.
Qed.
Lemma key_at kd : exists b, striceq buf (zlen pre) (keyword kd) = Some b /\ (b = true <-> nocase k (keyword kd)).
Proof. apply striceq_spec; [assumption|apply kw_nonul]. Qed.
Lemma not_said kd (o : option Z) : nocase k (keyword kd) -> (forall x, o = Some x -> ~ opt_range kd x) -> (forall x, o = Some x <-> numeral v x /\ x <= hi kd) ->
  forall k' x, ~ says (k, v) k' x.
Proof.
  intros N R F k' x S. assert (k' = kd) as -> by (destruct S as (A & _); apply keyword_inj; unfold nocase in *; cbn in A; congruence).
  destruct S as (_ & Nm & Rg). cbn in Nm. assert (x <= hi kd) by (destruct kd; cbn in *; lia). apply (R x); [apply F; split; assumption|assumption].
Qed.
Lemma no_kind : (forall kd, ~ nocase k (keyword kd)) -> forall k' x, ~ says (k, v) k' x.
Proof. intros N k' x (A & _). exact (N k' A). Qed.

Local Ltac key1 kd N := let E := fresh "KE" in destruct (key_at kd) as ([|] & E & N); rewrite E; cbn [obind]; [apply proj1 in N; specialize (N eq_refl)|assert (~ nocase k (keyword kd)) by (intros ?X; apply N in X; discriminate)].

Lemma req_option_spec q : exists s, req_option buf (zlen pre) vp q = Some s /\ outcome s (upd q) (fun _ => True) (k, v).
Proof.
  unfold req_option, MAX_BLKSIZE, MAX_WINDOWSIZE.
  change s_blksize with (keyword KBlk). change s_timeout with (keyword KTmo). change s_tsize with (keyword KTsz). change s_windowsize with (keyword KWin).
  key1 KBlk N1.
  { destruct (value_at 1428 ltac:(lia)) as ([x|] & E1 & F1); rewrite E1; cbn [obind].
    - destruct (Z.ltb_spec x 8); eexists; (split; [reflexivity|]); cbn [outcome].
      + split; [reflexivity|]. intros (k' & x' & S & _). revert S. apply (not_said KBlk (Some x)); auto. intros z [= <-]. cbn. lia.
      + exists KBlk, x. destruct (F1 x) as [G _]. specialize (G eq_refl). split; [split; [exact N1|split; [exact (proj1 G)|cbn; lia]]|split; [exact I|unfold upd; rewrite u16_small by lia; reflexivity]].
    - eexists. split; [reflexivity|]. cbn [outcome]. split; [reflexivity|]. intros (k' & x' & S & _). revert S. apply (not_said KBlk None); auto. discriminate. }
  key1 KTmo N2.
  { destruct (value_at 255 ltac:(lia)) as ([x|] & E1 & F1); rewrite E1; cbn [obind].
    - assert (P : 0 <= x) by (destruct (F1 x) as [G _]; specialize (G eq_refl); destruct G as ((_ & D & <-) & _); apply decval_nonneg; assumption).
      destruct (Z.eqb_spec x 0); eexists; (split; [reflexivity|]); cbn [outcome].
      + split; [reflexivity|]. intros (k' & x' & S & _). revert S. apply (not_said KTmo (Some x)); auto. intros z [= <-]. cbn. lia.
      + exists KTmo, x. destruct (F1 x) as [G _]. specialize (G eq_refl). split; [split; [exact N2|split; [exact (proj1 G)|cbn; lia]]|split; [exact I|unfold upd; rewrite u16_small by lia; reflexivity]].
    - eexists. split; [reflexivity|]. cbn [outcome]. split; [reflexivity|]. intros (k' & x' & S & _). revert S. apply (not_said KTmo None); auto. discriminate. }
  key1 KTsz N3.
  { destruct (value_at 4294967295 ltac:(lia)) as ([x|] & E1 & F1); rewrite E1; cbn [obind].
    - assert (P : 0 <= x) by (destruct (F1 x) as [G _]; specialize (G eq_refl); destruct G as ((_ & D & <-) & _); apply decval_nonneg; assumption).
      eexists; (split; [reflexivity|]); cbn [outcome].
      exists KTsz, x. destruct (F1 x) as [G _]. specialize (G eq_refl). split; [split; [exact N3|split; [exact (proj1 G)|cbn; lia]]|split; [exact I|reflexivity]].
    - eexists. split; [reflexivity|]. cbn [outcome]. split; [reflexivity|]. intros (k' & x' & S & _). revert S. apply (not_said KTsz None); auto. discriminate. }
  key1 KWin N4.
  { destruct (value_at 8 ltac:(lia)) as ([x|] & E1 & F1); rewrite E1; cbn [obind].
    - assert (P : 0 <= x) by (destruct (F1 x) as [G _]; specialize (G eq_refl); destruct G as ((_ & D & <-) & _); apply decval_nonneg; assumption).
      destruct (Z.eqb_spec x 0); eexists; (split; [reflexivity|]); cbn [outcome].
      + split; [reflexivity|]. intros (k' & x' & S & _). revert S. apply (not_said KWin (Some x)); auto. intros z [= <-]. cbn. lia.
      + exists KWin, x. destruct (F1 x) as [G _]. specialize (G eq_refl). split; [split; [exact N4|split; [exact (proj1 G)|cbn; lia]]|split; [exact I|unfold upd; rewrite u16_small by lia; reflexivity]].
    - eexists. split; [reflexivity|]. cbn [outcome]. split; [reflexivity|]. intros (k' & x' & S & _). revert S. apply (not_said KWin None); auto. discriminate. }
  eexists. split; [reflexivity|]. cbn [outcome]. split; [reflexivity|]. intros (k' & x' & S & _). revert S. apply no_kind. intros []; assumption.
Qed.
Definition asked (req : Z) (kd : okind) : Prop := Z.land req (2 ^ bit_of kd) <> 0.
Lemma oack_option_spec req g : exists s, oack_option buf (zlen pre) vp req g = Some s /\ outcome s (updn g) (asked req) (k, v).
Proof.
  unfold oack_option, MAX_BLKSIZE, MAX_WINDOWSIZE.
  change s_blksize with (keyword KBlk). change s_timeout with (keyword KTmo). change s_tsize with (keyword KTsz). change s_windowsize with (keyword KWin).
  assert (NA : forall kd b, nocase k (keyword kd) -> b = 2 ^ bit_of kd -> negb (negb (Z.land req b =? 0)) = true -> ~ exists k' x, says (k, v) k' x /\ asked req k').
  { intros kd b N -> H (k' & x & (A & _) & B). assert (k' = kd) as -> by (apply keyword_inj; unfold nocase in *; cbn in A; congruence). apply B. lia. }
  key1 KBlk N1.
  { destruct (negb (negb (Z.land req OPT_BLKSIZE =? 0))) eqn:Q; [eexists; split; [reflexivity|]; split; [reflexivity|]; eapply NA; [exact N1|reflexivity|exact Q]|].
    destruct (value_at 1428 ltac:(lia)) as ([x|] & E1 & F1); rewrite E1; cbn [obind].
    - destruct (Z.ltb_spec x 8); eexists; (split; [reflexivity|]); cbn [outcome].
      + split; [reflexivity|]. intros (k' & x' & S & _). revert S. apply (not_said KBlk (Some x)); auto. intros z [= <-]. cbn. lia.
      + exists KBlk, x. destruct (F1 x) as [G _]. specialize (G eq_refl). split; [split; [exact N1|split; [exact (proj1 G)|cbn; lia]]|split; [unfold asked; cbn; unfold OPT_BLKSIZE in Q; lia|unfold updn; rewrite u16_small by lia; reflexivity]].
    - eexists. split; [reflexivity|]. cbn [outcome]. split; [reflexivity|]. intros (k' & x' & S & _). revert S. apply (not_said KBlk None); auto. discriminate. }
  key1 KTmo N2.
  { destruct (negb (negb (Z.land req OPT_TIMEOUT =? 0))) eqn:Q; [eexists; split; [reflexivity|]; split; [reflexivity|]; eapply NA; [exact N2|reflexivity|exact Q]|].
    destruct (value_at 255 ltac:(lia)) as ([x|] & E1 & F1); rewrite E1; cbn [obind].
    - assert (P : 0 <= x) by (destruct (F1 x) as [G _]; specialize (G eq_refl); destruct G as ((_ & D & <-) & _); apply decval_nonneg; assumption).
      destruct (Z.eqb_spec x 0); eexists; (split; [reflexivity|]); cbn [outcome].
      + split; [reflexivity|]. intros (k' & x' & S & _). revert S. apply (not_said KTmo (Some x)); auto. intros z [= <-]. cbn. lia.
      + exists KTmo, x. destruct (F1 x) as [G _]. specialize (G eq_refl). split; [split; [exact N2|split; [exact (proj1 G)|cbn; lia]]|split; [unfold asked; cbn; unfold OPT_TIMEOUT in Q; lia|unfold updn; rewrite u16_small by lia; reflexivity]].
    - eexists. split; [reflexivity|]. cbn [outcome]. split; [reflexivity|]. intros (k' & x' & S & _). revert S. apply (not_said KTmo None); auto. discriminate. }
  key1 KTsz N3.
  { destruct (negb (negb (Z.land req OPT_TSIZE =? 0))) eqn:Q; [eexists; split; [reflexivity|]; split; [reflexivity|]; eapply NA; [exact N3|reflexivity|exact Q]|].
    destruct (value_at 4294967295 ltac:(lia)) as ([x|] & E1 & F1); rewrite E1; cbn [obind].
    - assert (P : 0 <= x) by (destruct (F1 x) as [G _]; specialize (G eq_refl); destruct G as ((_ & D & <-) & _); apply decval_nonneg; assumption).
      eexists; (split; [reflexivity|]); cbn [outcome].
      exists KTsz, x. destruct (F1 x) as [G _]. specialize (G eq_refl). split; [split; [exact N3|split; [exact (proj1 G)|cbn; lia]]|split; [unfold asked; cbn; unfold OPT_TSIZE in Q; lia|reflexivity]].
    - eexists. split; [reflexivity|]. cbn [outcome]. split; [reflexivity|]. intros (k' & x' & S & _). revert S. apply (not_said KTsz None); auto. discriminate. }
  key1 KWin N4.
  { destruct (negb (negb (Z.land req OPT_WINDOWSIZE =? 0))) eqn:Q; [eexists; split; [reflexivity|]; split; [reflexivity|]; eapply NA; [exact N4|reflexivity|exact Q]|].
    destruct (value_at 8 ltac:(lia)) as ([x|] & E1 & F1); rewrite E1; cbn [obind].
    - assert (P : 0 <= x) by (destruct (F1 x) as [G _]; specialize (G eq_refl); destruct G as ((_ & D & <-) & _); apply decval_nonneg; assumption).
      destruct (Z.eqb_spec x 0); eexists; (split; [reflexivity|]); cbn [outcome].
      + split; [reflexivity|]. intros (k' & x' & S & _). revert S. apply (not_said KWin (Some x)); auto. intros z [= <-]. cbn. lia.
      + exists KWin, x. destruct (F1 x) as [G _]. specialize (G eq_refl). split; [split; [exact N4|split; [exact (proj1 G)|cbn; lia]]|split; [unfold asked; cbn; unfold OPT_WINDOWSIZE in Q; lia|unfold updn; rewrite u16_small by lia; reflexivity]].
    - eexists. split; [reflexivity|]. cbn [outcome]. split; [reflexivity|]. intros (k' & x' & S & _). revert S. apply (not_said KWin None); auto. discriminate. }
  eexists. split; [reflexivity|]. cbn [outcome]. split; [reflexivity|]. intros (k' & x' & S & _). revert S. apply no_kind. intros []; assumption.
Qed.
End Option.
