(** C23: DNS names. *)
From Verif Require Import Base Bits ListUtil Arp DnsSpec Dns.

Lemma zget_byte p i : Forall byte p -> 0 <= zget p i < 256.
Proof.
  intros F. unfold zget. destruct (nth_in_or_default (Z.to_nat i) p 0) as [I|E]; [|rewrite E; lia].
  rewrite Forall_forall in F. apply F. exact I.
Qed.
Lemma byte_cases (P : Z -> bool) : forallb P (map Z.of_nat (seq 0 256)) = true -> forall c, 0 <= c < 256 -> P c = true.
Proof.
  intros F c H. rewrite forallb_forall in F. apply F. apply in_map_iff. exists (Z.to_nat c). split; [lia|]. apply in_seq. lia.
Qed.
Lemma ptr_test c : 0 <= c < 256 -> (Z.land c 192 =? 192) = (192 <=? c).
Proof. intros H. apply eqb_prop. revert c H. apply (byte_cases (fun c => Bool.eqb (Z.land c 192 =? 192) (192 <=? c))). vm_compute. reflexivity. Qed.
Lemma ptr_value c d : 192 <= c < 256 -> 0 <= d < 256 -> Z.lor (Z.shiftl (Z.land c 63) 8) d = 256 * (c - 192) + d.
Proof.
  intros Hc Hd. change 63 with (Z.ones 6). rewrite Z.land_ones by lia. rewrite Z.shiftl_mul_pow2 by lia. change (2 ^ 6) with 64. change (2 ^ 8) with 256.
  rewrite lor_add with (k := 8); [lia|lia|exact Hd|]. apply Z.mod_mul. lia.
Qed.
Lemma bget_in p i : 0 <= i < zlen p -> bget p i = Some (zget p i).
Proof. intros H. unfold bget. destruct ((0 <=? i) && (i <? zlen p)) eqn:E; [reflexivity|lia]. Qed.
Lemma mread_sub (p : list Z) i n : 0 <= i -> 0 <= n -> i + n <= zlen p -> mread p i n = Some (sub p i n).
Proof. intros. unfold mread, sub. destruct ((0 <=? i) && (0 <=? n) && (i + n <=? zlen p)) eqn:E; [reflexivity|lia]. Qed.
Lemma zlen_sub p i n : 0 <= i -> 0 <= n -> i + n <= zlen p -> zlen (sub p i n) = n.
Proof. intros. unfold sub, zlen in *. rewrite firstn_length, skipn_length. lia. Qed.

(** Number of decoding steps. *)
Inductive dname_n (p : list Z) : Z -> nat -> list (list Z) -> Prop :=
| DNn_end pos : 0 <= pos < zlen p -> zget p pos = 0 -> dname_n p pos 1 []
| DNn_label pos n ls : 0 <= pos < zlen p -> 1 <= zget p pos < 192 -> pos + 1 + zget p pos <= zlen p ->
    dname_n p (pos + 1 + zget p pos) n ls -> dname_n p pos (S n) (sub p (pos + 1) (zget p pos) :: ls)
| DNn_ptr pos n ls : 0 <= pos -> pos + 1 < zlen p -> 192 <= zget p pos ->
    256 * (zget p pos - 192) + zget p (pos + 1) < pos ->
    dname_n p (256 * (zget p pos - 192) + zget p (pos + 1)) n ls -> dname_n p pos (S n) ls.
Lemma dname_has_n p pos ls : dname p pos ls -> exists n, dname_n p pos n ls.
Proof.
  induction 1 as [pos H E|pos ls H1 H2 H3 _ (n & IH)|pos ls H1 H2 H3 H4 _ (n & IH)].
  - exists 1%nat. constructor; auto.
  - exists (S n). constructor; auto.
  - exists (S n). apply DNn_ptr; auto.
Qed.
Lemma dname_n_det p pos n ls : dname_n p pos n ls -> forall n' ls', dname_n p pos n' ls' -> n = n' /\ ls = ls'.
Proof.
  induction 1 as [pos H E|pos n ls H1 H2 H3 _ IH|pos n ls H1 H2 H3 H4 _ IH]; intros n' ls' D; inversion D; subst; try lia; auto.
  - match goal with X : dname_n p _ _ _ |- _ => destruct (IH _ _ X) as (-> & ->) end. auto.
  - match goal with X : dname_n p _ _ _ |- _ => destruct (IH _ _ X) as (-> & ->) end. auto.
Qed.
Lemma dname_n_trace p pos n ls : dname_n p pos n ls ->
  exists tr, length tr = n /\ NoDup tr /\ forall q, In q tr -> 0 <= q < zlen p /\ exists k ls', (k <= n)%nat /\ dname_n p q k ls'.
Proof.
  assert (X : forall pos n ls, dname_n p pos (S n) ls -> 0 <= pos < zlen p ->
     (exists tr, length tr = n /\ NoDup tr /\ forall q, In q tr -> 0 <= q < zlen p /\ exists k ls', (k <= n)%nat /\ dname_n p q k ls') ->
     exists tr, length tr = S n /\ NoDup tr /\ forall q, In q tr -> 0 <= q < zlen p /\ exists k ls', (k <= S n)%nat /\ dname_n p q k ls').
  { intros po m l D R (tr & L & ND & F). exists (po :: tr). split; [cbn; lia|]. split.
    - constructor; [|exact ND]. intros I. destruct (F _ I) as (_ & k & ls' & K & D'). destruct (dname_n_det _ _ _ _ D _ _ D'). lia.
    - intros q [<- |I]; [split; [exact R|exists (S m), l; auto]|]. destruct (F _ I) as (Q & k & ls' & K & D'). split; [exact Q|]. exists k, ls'. split; [lia|exact D']. }
  induction 1 as [pos H E|pos n ls H1 H2 H3 D IH|pos n ls H1 H2 H3 H4 D IH].
  - exists [pos]. split; [reflexivity|]. split; [constructor; [intros []|constructor]|]. intros q [<- |[]]. split; [lia|]. exists 1%nat, []. split; [lia|]. constructor; auto.
  - apply (X pos n (sub p (pos + 1) (zget p pos) :: ls)); [constructor; auto|lia|exact IH].
  - apply (X pos n ls); [apply DNn_ptr; auto|lia|exact IH].
Qed.
Lemma nodup_bound (tr : list Z) m : NoDup tr -> (forall q, In q tr -> 0 <= q < Z.of_nat m) -> (length tr <= m)%nat.
Proof.
  intros ND F. assert (I : incl (map Z.to_nat tr) (seq 0 m)).
  { intros x I. apply in_map_iff in I as (q & <- & I). apply in_seq. specialize (F q I). lia. }
  apply NoDup_incl_length in I.
  - rewrite map_length, seq_length in I. exact I.
  - clear I. induction tr as [|a tr IH]; cbn; [constructor|]. inversion ND; subst. constructor.
    + intros I. apply in_map_iff in I as (b & E & I). pose proof (F a (or_introl eq_refl)). pose proof (F b (or_intror I)). assert (a = b) by lia. subst. auto.
    + apply IH; auto. intros q I. apply F. right. exact I.
Qed.
(** A decoding that ends visits every position at most once. *)
Lemma dname_n_bound p pos n ls : dname_n p pos n ls -> (n <= length p)%nat.
Proof.
  intros D. destruct (dname_n_trace _ _ _ _ D) as (tr & L & ND & F). rewrite <- L. apply nodup_bound; [exact ND|]. intros q I. apply (F q I).
Qed.
Lemma dname_n_dname p pos n ls : dname_n p pos n ls -> dname p pos ls.
Proof. induction 1; [apply DN_end|apply DN_label|apply DN_ptr]; auto. Qed.

(** What is appended to the text [pre] written so far. *)
Definition more (pre : list Z) (ls : list (list Z)) : list Z :=
  match pre, ls with [], _ => dotted ls | _, [] => [] | _, _ => 46 :: dotted ls end.
Lemma more_cons pre l ls : l <> [] -> more pre (l :: ls) = (if negb (zlen pre =? 0) then [46] else []) ++ l ++ more ((pre ++ if negb (zlen pre =? 0) then [46] else []) ++ l) ls.
Proof.
  intros NL. assert (X : forall q : list Z, more (q ++ l) ls = match ls with [] => [] | _ => 46 :: dotted ls end).
  { intros q. unfold more. destruct (q ++ l) as [|x y] eqn:E; [|reflexivity]. apply app_eq_nil in E. destruct E; congruence. }
  rewrite X. unfold more. destruct pre as [|a pre].
  - change (zlen (@nil Z) =? 0) with true. cbn [negb app]. destruct ls; cbn; [rewrite app_nil_r; reflexivity|reflexivity].
  - destruct (Z.eqb_spec (zlen (a :: pre)) 0) as [E|E]; [rewrite zlen_cons in E; pose proof (zlen_nonneg pre); lia|]. cbn [negb].
    destruct ls as [|l2 ls]; [cbn; rewrite app_nil_r; reflexivity|]. reflexivity.
Qed.

(** Complete behaviour of the copy loop. *)
Lemma copy_ok p : Forall byte p -> forall n pos ls, dname_n p pos n ls -> forall fuel pre out, (n <= fuel)%nat -> firstn (length pre) out = pre -> zlen pre <= zlen out ->
  zlen pre + zlen (more pre ls) < zlen out ->
  exists rest, copy_loop fuel p pos (zlen pre) out = Some (Some (pre ++ more pre ls ++ [0] ++ rest)) /\ zlen (pre ++ more pre ls ++ [0] ++ rest) = zlen out.
Proof.
  intros BP. induction 1 as [pos H E|pos n ls H1 H2 H3 D IH|pos n ls H1 H2 H3 H4 D IH]; intros fuel pre out HF HP HO HL; (destruct fuel as [|fuel]; [lia|]); cbn [copy_loop].
  - destruct (Z.ltb_spec pos (zlen p)); [|lia]. rewrite bget_in by lia. cbn [obind]. rewrite E. cbn [Z.eqb].
    assert (M : more pre [] = []) by (destruct pre; reflexivity). rewrite M in *. change (zlen (@nil Z)) with 0 in HL.
    destruct (Z.leb_spec (zlen out) (zlen pre)); [lia|]. destruct (split_at out (zlen pre) ltac:(pose proof (zlen_nonneg pre); lia)) as (a & b & -> & La & Lb).
    assert (a = pre). { rewrite <- HP. unfold zlen in La. replace (length pre) with (length a) by lia. rewrite firstn_app, firstn_all, Nat.sub_diag. cbn. rewrite app_nil_r. reflexivity. }
    subst a. destruct b as [|x b]; [rewrite app_nil_r in *; lia|]. exists b.
    rewrite (mwrite_eq _ pre [x] b [0] (zlen pre) (pre ++ [0] ++ b)) by reflexivity. cbn [obind app]. split; [reflexivity|]. rewrite !zlen_app, !zlen_cons. lia.
  - destruct (Z.ltb_spec pos (zlen p)); [|lia]. rewrite bget_in by lia. cbn [obind]. destruct (Z.eqb_spec (zget p pos) 0); [lia|].
    rewrite ptr_test by lia. destruct (Z.leb_spec 192 (zget p pos)); [lia|]. destruct (Z.ltb_spec (zlen p) (pos + 1 + zget p pos)); [lia|].
    set (l := sub p (pos + 1) (zget p pos)) in *. assert (LL : zlen l = zget p pos) by (apply zlen_sub; lia).
    assert (NL : l <> []) by (intros X; rewrite X in LL; change (zlen (@nil Z)) with 0 in LL; lia).
    rewrite (more_cons pre l ls NL) in *. set (sep := if negb (zlen pre =? 0) then [46] else []) in *.
    rewrite !zlen_app in HL. set (M := more ((pre ++ sep) ++ l) ls) in *. pose proof (zlen_nonneg M). pose proof (zlen_nonneg pre).
    assert (LS : zlen sep = if negb (zlen pre =? 0) then 1 else 0) by (unfold sep; destruct (negb (zlen pre =? 0)); reflexivity).
    assert (T1 : negb (zlen pre =? 0) && (zlen out <=? zlen pre + 1) = false).
    { destruct (negb (zlen pre =? 0)); [|reflexivity]. cbn [andb]. apply Z.leb_gt. lia. }
    rewrite T1. clear T1.
    assert (W : exists out1, (if negb (zlen pre =? 0) then mwrite out (zlen pre) [46] else Some out) = Some out1 /\ firstn (length (pre ++ sep)) out1 = pre ++ sep /\ zlen out1 = zlen out).
    { destruct (split_at out (zlen pre) ltac:(lia)) as (a & b & EO & La & Lb).
      assert (a = pre). { rewrite <- HP, EO. unfold zlen in La. replace (length pre) with (length a) by lia. rewrite firstn_app, firstn_all, Nat.sub_diag. cbn. rewrite app_nil_r. reflexivity. }
      subst a. unfold sep in *. clear sep. destruct (negb (zlen pre =? 0)).
      - destruct b as [|x b]; [change (zlen (@nil Z)) with 0 in Lb; lia|]. exists (pre ++ [46] ++ b).
        rewrite (mwrite_eq out pre [x] b [46] (zlen pre) (pre ++ [46] ++ b)) by auto. split; [reflexivity|]. split.
        + rewrite app_assoc, firstn_app, firstn_all, Nat.sub_diag. cbn. rewrite app_nil_r. reflexivity.
        + rewrite EO, !zlen_app, !zlen_cons. change (zlen (@nil Z)) with 0. lia.
      - exists out. split; [reflexivity|]. rewrite app_nil_r. auto. }
    destruct W as (out1 & -> & P1 & L1). cbn [obind].
    assert (EO : (if negb (zlen pre =? 0) then zlen pre + 1 else zlen pre) = zlen (pre ++ sep)) by (rewrite zlen_app, LS; destruct (negb (zlen pre =? 0)); lia).
    rewrite EO. rewrite !zlen_app in *. destruct (Z.leb_spec (zlen out1) (zlen pre + zlen sep + zget p pos)); [lia|].
    rewrite mread_sub by lia. cbn [obind]. fold l.
    destruct (split_at out1 (zlen (pre ++ sep)) ltac:(rewrite zlen_app; pose proof (zlen_nonneg sep); lia)) as (a & b & EO1 & La & Lb).
    assert (a = pre ++ sep). { rewrite <- P1, EO1. unfold zlen in La. replace (length (pre ++ sep)) with (length a) by lia. rewrite firstn_app, firstn_all, Nat.sub_diag. cbn. rewrite app_nil_r. reflexivity. }
    subst a. rewrite zlen_app in Lb. destruct (split_at b (zget p pos) ltac:(lia)) as (b1 & b2 & -> & Lb1 & Lb2).
    rewrite (mwrite_eq out1 (pre ++ sep) b1 b2 l (zlen pre + zlen sep) ((pre ++ sep) ++ l ++ b2)) by (auto; try (rewrite zlen_app; reflexivity); lia). cbn [obind].
    replace (zlen pre + zlen sep + zget p pos) with (zlen ((pre ++ sep) ++ l)) by (rewrite !zlen_app; lia).
    destruct (IH fuel ((pre ++ sep) ++ l) ((pre ++ sep) ++ l ++ b2)) as (rest & R1 & R2).
    + lia.
    + rewrite (app_assoc (pre ++ sep)), firstn_app, firstn_all, Nat.sub_diag. cbn. rewrite app_nil_r. reflexivity.
    + rewrite !zlen_app. pose proof (zlen_nonneg b2). lia.
    + fold M. assert (zlen ((pre ++ sep) ++ l ++ b2) = zlen out) by (rewrite <- L1, EO1, !zlen_app; lia). rewrite !zlen_app in *. lia.
    + exists rest. fold M in R1, R2. rewrite R1. rewrite <- !app_assoc in *. split; [reflexivity|]. rewrite R2. rewrite <- L1, EO1, !zlen_app. lia.
  - destruct (Z.ltb_spec pos (zlen p)); [|lia]. rewrite bget_in by lia. cbn [obind]. destruct (Z.eqb_spec (zget p pos) 0); [lia|].
    pose proof (zget_byte p pos BP). pose proof (zget_byte p (pos + 1) BP).
    rewrite ptr_test by lia. destruct (Z.leb_spec 192 (zget p pos)); [|lia]. destruct (Z.leb_spec (zlen p) (pos + 1)); [lia|].
    rewrite bget_in by lia. cbn [obind]. rewrite ptr_value by lia. destruct (Z.leb_spec pos (256 * (zget p pos - 192) + zget p (pos + 1))); [lia|].
    apply IH; auto. lia.
Qed.
(** Soundness and memory safety of the copy loop. *)
Lemma copy_sound p : Forall byte p -> forall fuel pos pre out, 0 <= pos -> firstn (length pre) out = pre -> zlen pre <= zlen out ->
  exists r, copy_loop fuel p pos (zlen pre) out = Some r /\ forall out', r = Some out' -> exists n ls, dname_n p pos n ls /\ (n <= fuel)%nat /\ zlen pre + zlen (more pre ls) < zlen out.
Proof.
  intros BP. induction fuel as [|fuel IH]; intros pos pre out HP0 HP HO; cbn [copy_loop]; [exists None; split; [reflexivity|discriminate]|].
  destruct (Z.ltb_spec pos (zlen p)); [|exists None; split; [reflexivity|discriminate]]. rewrite bget_in by lia. cbn [obind].
  destruct (Z.eqb_spec (zget p pos) 0) as [E0|E0].
  { destruct (Z.leb_spec (zlen out) (zlen pre)); [exists None; split; [reflexivity|discriminate]|]. destruct (mwrite_in out (zlen pre) [0]) as (o' & E); [apply zlen_nonneg|change (zlen [0]) with 1; lia|].
    rewrite E. cbn [obind]. exists (Some o'). split; [reflexivity|]. intros _ _. exists 1%nat, []. split; [constructor; auto; lia|]. split; [lia|].
    assert (M : more pre [] = []) by (destruct pre; reflexivity). rewrite M. change (zlen (@nil Z)) with 0. lia. }
  pose proof (zget_byte p pos BP). pose proof (zget_byte p (pos + 1) BP). rewrite ptr_test by lia. destruct (Z.leb_spec 192 (zget p pos)).
  { destruct (Z.leb_spec (zlen p) (pos + 1)); [exists None; split; [reflexivity|discriminate]|].
    rewrite bget_in by lia. cbn [obind]. rewrite ptr_value by lia. destruct (Z.leb_spec pos (256 * (zget p pos - 192) + zget p (pos + 1))); [exists None; split; [reflexivity|discriminate]|].
    destruct (IH (256 * (zget p pos - 192) + zget p (pos + 1)) pre out) as (r & E & R); auto; [lia|]. exists r. split; [exact E|]. intros out' ->. destruct (R _ eq_refl) as (n & ls & D & N & L).
    exists (S n), ls. split; [apply DNn_ptr; auto; lia|]. split; [lia|exact L]. }
  destruct (Z.ltb_spec (zlen p) (pos + 1 + zget p pos)); [exists None; split; [reflexivity|discriminate]|].
  destruct (negb (zlen pre =? 0) && (zlen out <=? zlen pre + 1)) eqn:T1; [exists None; split; [reflexivity|discriminate]|].
  set (l := sub p (pos + 1) (zget p pos)) in *. assert (LL : zlen l = zget p pos) by (apply zlen_sub; lia).
  assert (NL : l <> []) by (intros X; rewrite X in LL; change (zlen (@nil Z)) with 0 in LL; lia).
  set (sep := if negb (zlen pre =? 0) then [46] else []) in *. pose proof (zlen_nonneg pre).
  assert (LS : zlen sep = if negb (zlen pre =? 0) then 1 else 0) by (unfold sep; destruct (negb (zlen pre =? 0)); reflexivity).
  assert (W : exists out1, (if negb (zlen pre =? 0) then mwrite out (zlen pre) [46] else Some out) = Some out1 /\ firstn (length (pre ++ sep)) out1 = pre ++ sep /\ zlen out1 = zlen out /\ zlen (pre ++ sep) <= zlen out1).
  { destruct (split_at out (zlen pre) ltac:(lia)) as (a & b & EO & La & Lb).
    assert (a = pre). { rewrite <- HP, EO. unfold zlen in La. replace (length pre) with (length a) by lia. rewrite firstn_app, firstn_all, Nat.sub_diag. cbn. rewrite app_nil_r. reflexivity. }
    subst a. rewrite zlen_app, LS. unfold sep in *. clear sep. destruct (negb (zlen pre =? 0)).
    - cbn [andb] in T1. destruct b as [|x b]; [change (zlen (@nil Z)) with 0 in Lb; lia|]. exists (pre ++ [46] ++ b).
      rewrite (mwrite_eq out pre [x] b [46] (zlen pre) (pre ++ [46] ++ b)) by auto. split; [reflexivity|]. split.
      + rewrite app_assoc, firstn_app, firstn_all, Nat.sub_diag. cbn. rewrite app_nil_r. reflexivity.
      + rewrite EO, !zlen_app, !zlen_cons. change (zlen (@nil Z)) with 0. pose proof (zlen_nonneg b). lia.
    - exists out. split; [reflexivity|]. rewrite app_nil_r. split; [exact HP|]. lia. }
  destruct W as (out1 & -> & P1 & L1 & L2). cbn [obind].
  assert (EO : (if negb (zlen pre =? 0) then zlen pre + 1 else zlen pre) = zlen (pre ++ sep)) by (rewrite zlen_app, LS; destruct (negb (zlen pre =? 0)); lia).
  rewrite EO. destruct (Z.leb_spec (zlen out1) (zlen (pre ++ sep) + zget p pos)); [exists None; split; [reflexivity|discriminate]|].
  rewrite mread_sub by lia. cbn [obind]. fold l. pose proof (zlen_nonneg (pre ++ sep)).
  destruct (split_at out1 (zlen (pre ++ sep)) ltac:(lia)) as (a & b & EO1 & La & Lb).
  assert (a = pre ++ sep). { rewrite <- P1, EO1. unfold zlen in La. replace (length (pre ++ sep)) with (length a) by lia. rewrite firstn_app, firstn_all, Nat.sub_diag. cbn. rewrite app_nil_r. reflexivity. }
  subst a. destruct (split_at b (zget p pos) ltac:(lia)) as (b1 & b2 & -> & Lb1 & Lb2).
  rewrite (mwrite_eq out1 (pre ++ sep) b1 b2 l (zlen (pre ++ sep)) ((pre ++ sep) ++ l ++ b2)) by (auto; lia). cbn [obind].
  replace (zlen (pre ++ sep) + zget p pos) with (zlen ((pre ++ sep) ++ l)) by (rewrite zlen_app; lia).
  destruct (IH (pos + 1 + zget p pos) ((pre ++ sep) ++ l) ((pre ++ sep) ++ l ++ b2)) as (r & E & R).
  - lia.
  - rewrite (app_assoc (pre ++ sep)), firstn_app, firstn_all, Nat.sub_diag. cbn. rewrite app_nil_r. reflexivity.
  - rewrite !zlen_app. pose proof (zlen_nonneg b2). lia.
  - exists r. split; [exact E|]. intros out' ->. destruct (R _ eq_refl) as (n & ls & D & N & L).
    exists (S n), (l :: ls). split; [constructor; auto; lia|]. split; [lia|].
    rewrite (more_cons pre l ls NL). fold sep. assert (zlen ((pre ++ sep) ++ l ++ b2) = zlen out) by (rewrite <- L1, EO1, !zlen_app; lia).
    rewrite !zlen_app in *. lia.
Qed.

(** C23.  Copying a name out of any packet, whatever the starting offset and size of the
    output: ends without reading outside the packet or writing outside the output, and
    succeeds exactly if the bytes there are a name in the sense of RFC 1035 whose text
    with its terminator fits; the output then starts with that text and its
    terminator. *)
Theorem dns_copy_name_exact : forall p pos out, Forall byte p -> 0 <= pos ->
  exists r, dns_copy_name p pos out = Some r /\
  match r with
  | Some out' => exists ls rest, dname p pos ls /\ out' = dotted ls ++ [0] ++ rest /\ zlen out' = zlen out
  | None => forall ls, dname p pos ls -> zlen out <= zlen (dotted ls)
  end.
Proof.
  intros p pos out BP P0. unfold dns_copy_name. destruct (copy_sound p BP (length p) pos [] out P0 eq_refl ltac:(apply zlen_nonneg)) as (r & E & R).
  change (zlen (@nil Z)) with 0 in *. exists r. split; [exact E|]. destruct r as [out'|].
  - destruct (R _ eq_refl) as (n & ls & D & N & L). cbn [more] in L.
    destruct (copy_ok p BP n pos ls D (length p) [] out N eq_refl ltac:(apply zlen_nonneg) ltac:(cbn [more]; change (zlen (@nil Z)) with 0; lia)) as (rest & E2 & L2).
    change (zlen (@nil Z)) with 0 in E2. rewrite E in E2. exists ls, rest. split; [apply dname_n_dname with n; exact D|]. cbn [app more] in *. split; congruence.
  - intros ls D. apply dname_has_n in D as (n & D). pose proof (dname_n_bound _ _ _ _ D). destruct (Z.le_gt_cases (zlen out) (zlen (dotted ls))); [assumption|]. exfalso.
    destruct (copy_ok p BP n pos ls D (length p) [] out ltac:(assumption) eq_refl ltac:(apply zlen_nonneg) ltac:(cbn [more]; change (zlen (@nil Z)) with 0; lia)) as (rest & E2 & _).
    change (zlen (@nil Z)) with 0 in E2. rewrite E in E2. discriminate.
Qed.

(** Skipping *)
Lemma skip_spec p : Forall byte p -> forall fuel pos n, 0 <= pos -> 0 <= n -> n + Z.of_nat fuel = zlen p -> n < pos ->
  exists r, skip_loop fuel p n pos = Some r /\
  match r with
  | Some e => pos <= e <= zlen p /\ (name_end p pos e \/ e = zlen p /\ forall e', ~ name_end p pos e') \/ e = pos /\ zlen p < pos
  | None => forall e, ~ name_end p pos e
  end.
Proof.
  intros BP. induction fuel as [|fuel IH]; intros pos n H0 Hn HL HP; cbn [skip_loop].
  - destruct (Z.ltb_spec pos (zlen p)); [lia|]. unfold skip_done. destruct (Z.leb_spec (zlen p) n); [|lia]. exists None. split; [reflexivity|]. intros e D. inversion D; lia.
  - destruct (Z.ltb_spec pos (zlen p)) as [L|L].
    2:{ unfold skip_done. destruct (Z.leb_spec (zlen p) n).
        - exists None. split; [reflexivity|]. intros e D; inversion D; lia.
        - exists (Some pos). split; [reflexivity|]. destruct (Z.eq_dec pos (zlen p)); [left; split; [lia|right; split; [assumption|intros e' D; inversion D; lia]]|right; lia]. }
    rewrite bget_in by lia. cbn [obind]. destruct (Z.eqb_spec (zget p pos) 0) as [E0|E0].
    { unfold skip_done. destruct (Z.leb_spec (zlen p) (n + 1)); [lia|]. exists (Some (pos + 1)). split; [reflexivity|]. left. split; [lia|]. left. apply NE_end; auto; lia. }
    pose proof (zget_byte p pos BP). rewrite ptr_test by lia. destruct (Z.leb_spec 192 (zget p pos)).
    { destruct (Z.leb_spec (zlen p) (pos + 1)).
      - exists None. split; [reflexivity|]. intros e D. inversion D; lia.
      - unfold skip_done. destruct (Z.leb_spec (zlen p) (n + 1)); [lia|]. exists (Some (pos + 1 + 1)). split; [reflexivity|]. left. split; [lia|]. left. replace (pos + 1 + 1) with (pos + 2) by lia. apply NE_ptr; auto; lia. }
    destruct (Z.ltb_spec (zlen p) (pos + 1 + zget p pos)).
    { exists None. split; [reflexivity|]. intros e D. inversion D; lia. }
    destruct (IH (pos + 1 + zget p pos) (n + 1)) as (r & E & R); try lia. exists r. split; [exact E|]. destruct r as [e|].
    + destruct R as [(R1 & [R2|(R2 & R3)])|R]; [|left; split; [lia|right; split; [exact R2|intros e' D; inversion D; subst; try lia; eapply R3; eassumption]]|lia]. left. split; [lia|]. left. apply NE_label; auto; lia.
    + intros e D. inversion D; subst; try lia. eapply R. eassumption.
Qed.
(** C23.  Skipping a name of any packet from any offset behind the first byte ends, reads
    only inside the packet, and returns the position after the name, except that labels
    running exactly to the end of the packet without a terminator yield that end; it
    refuses exactly packets with no name there. *)
Theorem dns_skip_name_exact : forall p pos, Forall byte p -> 0 < pos <= zlen p ->
  exists r, dns_skip_name p pos = Some r /\
  match r with
  | Some e => pos <= e <= zlen p /\ (name_end p pos e \/ e = zlen p /\ forall e', ~ name_end p pos e')
  | None => forall e, ~ name_end p pos e
  end.
Proof.
  intros p pos BP HP. destruct (skip_spec p BP (length p) pos 0) as (r & E & R); try (unfold zlen in *; lia). exists r. split; [exact E|].
  destruct r as [e|]; [|exact R]. destruct R as [R|R]; [exact R|lia].
Qed.
Lemma name_end_det p pos e : name_end p pos e -> forall e', name_end p pos e' -> e = e'.
Proof. induction 1; intros e' D; inversion D; subst; try lia; auto. Qed.
Lemma name_end_range p pos e : name_end p pos e -> pos < e <= zlen p.
Proof. induction 1; lia. Qed.

(** * Encoding *)
Lemma sub_app (a b c : list Z) : sub (a ++ b ++ c) (zlen a) (zlen b) = b.
Proof.
  pose proof (mread_app a b c) as R. unfold mread in R. destruct ((0 <=? zlen a) && (0 <=? zlen b) && (zlen a + zlen b <=? zlen (a ++ b ++ c))); [|discriminate].
  unfold sub. congruence.
Qed.
Lemma zget_app (a : list Z) x b i : i = zlen a -> zget (a ++ x :: b) i = x.
Proof. intros ->. unfold zget, zlen. rewrite Nat2Z.id, app_nth2, Nat.sub_diag by lia. reflexivity. Qed.
(** An uncompressed wire name decodes to its labels. *)
Lemma wire_decodes ls : Forall (fun l => 1 <= zlen l <= 63) ls -> forall a b, dname (a ++ wire ls ++ b) (zlen a) ls.
Proof.
  induction ls as [|l ls IH]; intros F a b; cbn [wire].
  - apply DN_end; [rewrite !zlen_app; change (zlen [0]) with 1; pose proof (zlen_nonneg a); pose proof (zlen_nonneg b); lia|]. apply zget_app. reflexivity.
  - inversion F as [|? ? L F']; subst. set (p := a ++ (zlen l :: l ++ wire ls) ++ b).
    assert (G : zget p (zlen a) = zlen l) by (unfold p; apply zget_app; reflexivity).
    assert (EP : p = (a ++ [zlen l]) ++ l ++ (wire ls ++ b)) by (unfold p; cbn [app]; rewrite <- !app_assoc; reflexivity).
    assert (ES : sub p (zlen a + 1) (zget p (zlen a)) = l). { rewrite G, EP. replace (zlen a + 1) with (zlen (a ++ [zlen l])) by (rewrite zlen_app; reflexivity). apply sub_app. }
    assert (EP2 : p = (a ++ zlen l :: l) ++ wire ls ++ b) by (unfold p; cbn [app]; rewrite <- !app_assoc; reflexivity).
    assert (LP : zlen p = zlen a + 1 + zlen l + zlen (wire ls ++ b)) by (rewrite EP2, zlen_app, zlen_app, zlen_cons; lia).
    pose proof (zlen_nonneg a). pose proof (zlen_nonneg (wire ls ++ b)). rewrite <- ES at 1. apply DN_label; rewrite ?G; try lia.
    replace (zlen a + 1 + zlen l) with (zlen (a ++ zlen l :: l)) by (rewrite zlen_app, zlen_cons; lia). rewrite EP2. apply IH. exact F'.
Qed.
Lemma wire_ends ls : Forall (fun l => 1 <= zlen l <= 63) ls -> forall a b, name_end (a ++ wire ls ++ b) (zlen a) (zlen a + zlen (wire ls)).
Proof.
  induction ls as [|l ls IH]; intros F a b; cbn [wire].
  - change (zlen [0]) with 1. apply NE_end; [rewrite !zlen_app; change (zlen [0]) with 1; pose proof (zlen_nonneg a); pose proof (zlen_nonneg b); lia|]. apply zget_app. reflexivity.
  - inversion F as [|? ? L F']; subst. set (p := a ++ (zlen l :: l ++ wire ls) ++ b).
    assert (G : zget p (zlen a) = zlen l) by (unfold p; apply zget_app; reflexivity).
    assert (EP2 : p = (a ++ zlen l :: l) ++ wire ls ++ b) by (unfold p; cbn [app]; rewrite <- !app_assoc; reflexivity).
    assert (LP : zlen p = zlen a + 1 + zlen l + zlen (wire ls ++ b)) by (rewrite EP2, zlen_app, zlen_app, zlen_cons; lia).
    pose proof (zlen_nonneg a). pose proof (zlen_nonneg (wire ls ++ b)). apply NE_label; rewrite ?G; try lia.
    replace (zlen a + zlen (zlen l :: l ++ wire ls)) with (zlen (a ++ zlen l :: l) + zlen (wire ls)) by (rewrite !zlen_app, !zlen_cons, zlen_app; lia).
    replace (zlen a + 1 + zlen l) with (zlen (a ++ zlen l :: l)) by (rewrite zlen_app, zlen_cons; lia). rewrite EP2. apply IH. exact F'.
Qed.
Fixpoint wire_open (ls : list (list Z)) : list Z := match ls with [] => [] | l :: ls => zlen l :: l ++ wire_open ls end.
Lemma wire_open_wire ls : wire ls = wire_open ls ++ [0].
Proof. induction ls; cbn; [reflexivity|]. rewrite IHls, <- app_assoc. reflexivity. Qed.
(** The two text forms of a name: with or without the final dot. *)
Definition text_of (ls : list (list Z)) (s : list Z) : Prop := s = dotted ls \/ ls <> [] /\ s = dotted ls ++ [46].
Lemma take_label_spec s : let (l, r) := take_label s in ~ In 46 l /\ match r with None => s = l | Some s' => s = l ++ 46 :: s' end.
Proof.
  induction s as [|c s IH]; cbn [take_label]; [split; [intros []|reflexivity]|]. destruct (Z.eqb_spec c 46) as [-> |N]; [split; [intros []|reflexivity]|].
  destruct (take_label s) as [l r]. destruct IH as (A & B). split; [intros [X|X]; congruence || auto|]. destruct r; rewrite B; reflexivity.
Qed.
Lemma take_label_dot l s : ~ In 46 l -> take_label (l ++ 46 :: s) = (l, Some s).
Proof. induction l as [|c l IH]; intros N; cbn [app take_label]; [rewrite Z.eqb_refl; reflexivity|]. destruct (Z.eqb_spec c 46) as [-> |]; [exfalso; apply N; left; reflexivity|]. rewrite IH; [reflexivity|]. intros I. apply N. right. exact I. Qed.
Lemma take_label_end l : ~ In 46 l -> take_label l = (l, None).
Proof. induction l as [|c l IH]; intros N; cbn [take_label]; [reflexivity|]. destruct (Z.eqb_spec c 46) as [-> |]; [exfalso; apply N; left; reflexivity|]. rewrite IH; [reflexivity|]. intros I. apply N. right. exact I. Qed.
Lemma dotted_cons l ls : ls <> [] -> dotted (l :: ls) = l ++ 46 :: dotted ls.
Proof. destruct ls; [congruence|reflexivity]. Qed.
Lemma enc_sound : forall fuel s t acc w, enc_loop fuel s t acc = Some w ->
  exists ls, text_of ls s /\ Forall label_ok ls /\ w = acc ++ wire_open ls /\ (ls <> [] -> t + zlen (wire_open ls) <= 255).
Proof.
  induction fuel as [|fuel IH]; intros s t acc w; cbn [enc_loop]; destruct s as [|c s].
  - intros [= <-]. exists []. split; [left; reflexivity|]. split; [constructor|]. split; [rewrite app_nil_r; reflexivity|congruence].
  - discriminate.
  - intros [= <-]. exists []. split; [left; reflexivity|]. split; [constructor|]. split; [rewrite app_nil_r; reflexivity|congruence].
  - pose proof (take_label_spec (c :: s)) as T. destruct (take_label (c :: s)) as [l r]. destruct T as (N & T).
    destruct (Z.eqb_spec (zlen l) 0); [discriminate|]. destruct (Z.ltb_spec 63 (zlen l)); [discriminate|]. destruct (Z.ltb_spec 255 (t + zlen l + 1)); [discriminate|].
    pose proof (zlen_nonneg l). assert (OK : label_ok l) by (split; [lia|exact N]). destruct r as [s'|].
    + intros E. destruct (IH _ _ _ _ E) as (ls & TX & F & W & L). exists (l :: ls). rewrite T. split.
      * destruct ls as [|l2 ls].
        -- destruct TX as [-> |(X & _)]; [|congruence]. right. split; [discriminate|]. reflexivity.
        -- destruct TX as [-> |(X & ->)]; [left|right; split; [discriminate|]]; rewrite (dotted_cons l (l2 :: ls)) by discriminate; rewrite <- ?app_assoc; reflexivity.
      * split; [constructor; assumption|]. split; [rewrite W, <- app_assoc; reflexivity|]. intros _. cbn [wire_open]. rewrite zlen_cons, zlen_app.
        destruct ls as [|l2 ls]; [change (zlen (wire_open [])) with 0; lia|]. specialize (L ltac:(discriminate)). lia.
    + intros [= <-]. exists [l]. rewrite T. split; [left; reflexivity|]. split; [constructor; [exact OK|constructor]|]. split; [cbn; rewrite app_nil_r; reflexivity|].
      intros _. cbn [wire_open]. rewrite zlen_cons, zlen_app. change (zlen (@nil Z)) with 0. lia.
Qed.
Lemma enc_complete : forall ls s fuel t acc, text_of ls s -> Forall label_ok ls -> (length s <= fuel)%nat -> t + zlen (wire_open ls) <= 255 ->
  enc_loop fuel s t acc = Some (acc ++ wire_open ls).
Proof.
  induction ls as [|l ls IH]; intros s fuel t acc T F HF HL.
  - destruct T as [-> |(X & _)]; [|congruence]. cbn. destruct fuel; cbn; rewrite app_nil_r; reflexivity.
  - inversion F as [|? ? (L1 & N) F']; subst. cbn [wire_open] in HL. rewrite zlen_cons, zlen_app in HL.
    assert (LW : 0 <= zlen (wire_open ls)) by apply zlen_nonneg.
    assert (NE : s <> []). { intros ->. destruct T as [T|(_ & T)]; [|symmetry in T; apply app_eq_nil in T; destruct T; discriminate].
      destruct ls as [|l2 ls]; [cbn in T; rewrite <- T in L1; change (zlen (@nil Z)) with 0 in L1; lia|]. rewrite (dotted_cons l (l2 :: ls)) in T by discriminate. symmetry in T. apply app_eq_nil in T. destruct T; discriminate. }
    assert (TL : exists r, take_label s = (l, r) /\ match r with None => ls = [] | Some s' => text_of ls s' /\ (length s' < length s)%nat end).
    { destruct ls as [|l2 ls].
      - destruct T as [-> |(_ & ->)].
        + exists None. cbn [dotted]. split; [apply take_label_end; exact N|reflexivity].
        + exists (Some []). cbn [dotted]. split; [apply take_label_dot; exact N|]. split; [left; reflexivity|]. rewrite app_length. cbn. lia.
      - unfold text_of in T. rewrite (dotted_cons l (l2 :: ls)) in T by discriminate. destruct T as [-> |(_ & ->)].
        + eexists (Some _). split; [apply take_label_dot; exact N|]. split; [left; reflexivity|]. rewrite app_length. cbn [length]. lia.
        + rewrite <- app_assoc. exists (Some (dotted (l2 :: ls) ++ [46])). split; [apply (take_label_dot l (dotted (l2 :: ls) ++ [46])); exact N|]. split; [right; split; [discriminate|reflexivity]|]. rewrite (app_length l). change ((46 :: dotted (l2 :: ls)) ++ [46]) with (46 :: (dotted (l2 :: ls) ++ [46])). generalize (dotted (l2 :: ls) ++ [46]). intros x. cbn [length]. lia. }
    destruct TL as (r & E & R). destruct s as [|c s]; [congruence|]. destruct fuel as [|fuel]; [cbn in HF; lia|]. cbn [enc_loop]. rewrite E.
    destruct (Z.eqb_spec (zlen l) 0); [lia|]. destruct (Z.ltb_spec 63 (zlen l)); [lia|]. destruct (Z.ltb_spec 255 (t + zlen l + 1)); [lia|]. destruct r as [s'|].
    + destruct R as (R1 & R2). rewrite (IH s' fuel) by (auto; lia). rewrite <- app_assoc. reflexivity.
    + subst ls. cbn. rewrite app_nil_r. reflexivity.
Qed.
(** C23.  A text name is encoded exactly if it is made of labels of 1 to 63 bytes
    separated by dots (optionally one final dot) with at most 255 wire bytes before the
    terminator; the result is its RFC 1035 wire form. *)
Theorem dns_encode_exact : forall s w, dns_encode_name s = Some w <->
  exists ls, text_of ls s /\ Forall label_ok ls /\ zlen (wire ls) <= 256 /\ w = wire ls.
Proof.
  intros s w. unfold dns_encode_name. split.
  - destruct (enc_loop (length s) s 0 []) as [a|] eqn:E; [|discriminate]. intros [= <-]. destruct (enc_sound _ _ _ _ _ E) as (ls & T & F & W & L).
    exists ls. split; [exact T|]. split; [exact F|]. rewrite wire_open_wire, zlen_app. change (zlen [0]) with 1. split; [|subst a; reflexivity].
    destruct ls; [cbn; lia|]. specialize (L ltac:(discriminate)). lia.
  - intros (ls & T & F & L & ->). rewrite (enc_complete ls s (length s) 0 [] T F (le_n _)); [rewrite wire_open_wire; reflexivity|].
    rewrite wire_open_wire, zlen_app in L. change (zlen [0]) with 1 in L. lia.
Qed.
(** C23.  Round trip: the encoded name, anywhere in a message, decodes to labels whose
    dotted text is the name looked up (less a final dot). *)
Theorem dns_name_round_trip : forall s w a b out, dns_encode_name s = Some w -> Forall byte (a ++ w ++ b) -> 256 <= zlen out ->
  exists t rest, dns_copy_name (a ++ w ++ b) (zlen a) out = Some (Some (t ++ [0] ++ rest)) /\ (s = t \/ s = t ++ [46]).
Proof.
  intros s w a b out E BP LO. apply dns_encode_exact in E as (ls & T & F & L & ->).
  assert (F63 : Forall (fun l => 1 <= zlen l <= 63) ls) by (eapply Forall_impl; [|exact F]; intros l (X & _); exact X).
  pose proof (wire_decodes ls F63 a b) as D. destruct (dns_copy_name_exact (a ++ wire ls ++ b) (zlen a) out BP ltac:(apply zlen_nonneg)) as (r & E & R). rewrite E.
  assert (LD : zlen (dotted ls) < 256). { rewrite wire_open_wire, zlen_app in L. change (zlen [0]) with 1 in L. clear - L. assert (zlen (dotted ls) <= zlen (wire_open ls)); [|lia].
    clear L. induction ls as [|l ls IH]; [cbn; lia|]. destruct ls as [|l2 ls]; [cbn [dotted wire_open]; rewrite zlen_cons, zlen_app; change (zlen (@nil Z)) with 0; lia|].
    rewrite (dotted_cons l (l2 :: ls)) by discriminate. rewrite zlen_app, zlen_cons. change (wire_open (l :: l2 :: ls)) with (zlen l :: l ++ wire_open (l2 :: ls)). rewrite zlen_cons, zlen_app. lia. }
  destruct r as [out'|].
  - destruct R as (ls' & rest & D' & -> & _). apply dname_has_n in D as (n & D). apply dname_has_n in D' as (n' & D'). destruct (dname_n_det _ _ _ _ D _ _ D') as (_ & <-).
    exists (dotted ls), rest. split; [reflexivity|]. destruct T as [-> |(_ & ->)]; auto.
  - specialize (R _ D). lia.
Qed.

Print Assumptions dns_copy_name_exact.
Print Assumptions dns_skip_name_exact.
Print Assumptions dns_encode_exact.
Print Assumptions dns_name_round_trip.

(** Non-vacuity: "a.bc" then a compressed name pointing into it; a pointer loop. *)
Definition ex_pkt := [9; 1; 97; 2; 98; 99; 0; 1; 120; 192; 3; 1; 121; 192; 11].
Example ex_copy : dns_copy_name ex_pkt 7 (repeat 7 8) = Some (Some [120; 46; 98; 99; 0; 7; 7; 7]) /\ dns_copy_name ex_pkt 11 (repeat 7 80) = Some None /\
  dns_copy_name ex_pkt 7 (repeat 7 4) = Some None /\ dns_skip_name ex_pkt 7 = Some (Some 11) /\ dns_skip_name ex_pkt 1 = Some (Some 7).
Proof. vm_compute. auto. Qed.
Example ex_encode : dns_encode_name [119; 119; 46; 97] = Some [2; 119; 119; 1; 97; 0] /\ dns_encode_name [119; 46; 46; 97] = None /\ dns_encode_name [97; 46] = Some [1; 97; 0].
Proof. vm_compute. auto. Qed.
