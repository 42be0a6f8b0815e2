(** Proofs for C64: the request parser. *)
From Verif Require Import Base HttpUrl HttpUrlProps HttpReq HttpReqSpec.
Local Ltac Zify.zify_post_hook ::= idtac.

Lemma lower_tolower c : tolower c = lower c. Proof. reflexivity. Qed.

(** ** Scanning *)
Lemma skipn_pre (pre s : list Z) : skipn (Z.to_nat (zlen pre)) (pre ++ s) = s.
Proof. unfold zlen. rewrite Nat2Z.id, skipn_app, skipn_all, Nat.sub_diag. reflexivity. Qed.

Lemma scan_chr_hit c a b : forall i, c <> 0 -> ~ In c a -> ~ In 0 a -> scan_chr (a ++ c :: b) c i = Some (Some (i + zlen a)).
Proof.
  induction a as [|x a IH]; intros i C A Z; cbn [app scan_chr].
  - rewrite Z.eqb_refl, zlen_nil, Z.add_0_r. reflexivity.
  - cbn in A, Z. destruct (Z.eqb_spec x c); [tauto|]. destruct (Z.eqb_spec x 0); [tauto|].
    rewrite IH by tauto. rewrite zlen_cons. do 2 f_equal. lia.
Qed.
Lemma scan_chr_inv c : forall s i, c <> 0 -> match scan_chr (s ++ [0]) c i with
  | Some (Some q) => exists a b, s = a ++ c :: b /\ ~ In c a /\ ~ In 0 a /\ q = i + zlen a
  | Some None => forall a b, s = a ++ c :: b -> ~ In 0 a -> In c a
  | None => False end.
Proof.
  induction s as [|x s IH]; intros i C; cbn [app scan_chr].
  - destruct (Z.eqb_spec 0 c); [congruence|]. cbn. intros [|? ?] ? E; discriminate.
  - destruct (Z.eqb_spec x c) as [->|D].
    + exists [], s. split; [reflexivity|]. split; [cbn; tauto|]. split; [cbn; tauto|]. unfold zlen; cbn; lia.
    + destruct (Z.eqb_spec x 0) as [->|D0].
      * intros [|y a] b E N; [injection E; congruence|]. injection E as <- E. exfalso. apply N. left. reflexivity.
      * specialize (IH (i + 1) C). destruct (scan_chr (s ++ [0]) c (i + 1)) as [[q|]|]; [| |exact IH].
        -- destruct IH as (a & b & -> & A & Z & ->). exists (x :: a), b. split; [reflexivity|].
           split; [cbn; tauto|]. split; [cbn; tauto|]. rewrite zlen_cons. lia.
        -- intros [|y a] b E N; [injection E; congruence|]. injection E as <- E. right. apply (IH a b E). cbn in N. tauto.
Qed.
Lemma scan_chr_post c : forall s i post, scan_chr (s ++ 0 :: post) c i = scan_chr (s ++ [0]) c i \/ c = 0.
Proof.
  intros s i post. destruct (Z.eq_dec c 0) as [->|C]; [right; reflexivity|left]. revert i. induction s as [|x s IH]; intros i; cbn [app scan_chr].
  - destruct (0 =? c); reflexivity.
  - destruct (x =? c); [reflexivity|]. destruct (x =? 0); [reflexivity|]. apply IH.
Qed.
Lemma strchr_at pre s post c : strchr (pre ++ s ++ 0 :: post) (zlen pre) c = scan_chr (s ++ 0 :: post) c (zlen pre).
Proof.
  unfold strchr. rewrite skipn_pre. rewrite zlen_app. pose proof (zlen_nonneg pre). pose proof (zlen_nonneg (s ++ 0 :: post)).
  destruct (Z.leb_spec 0 (zlen pre)); [|lia]. destruct (Z.leb_spec (zlen pre) (zlen pre + zlen (s ++ 0 :: post))); [|lia]. reflexivity.
Qed.
(** strchr on a NUL-terminated rest, by cases. *)
Lemma strchr_cases pre s post c : c <> 0 ->
  (exists a b, s = a ++ c :: b /\ ~ In c a /\ ~ In 0 a /\ strchr (pre ++ s ++ 0 :: post) (zlen pre) c = Some (Some (zlen pre + zlen a))) \/
  (strchr (pre ++ s ++ 0 :: post) (zlen pre) c = Some None /\ forall a b, s = a ++ c :: b -> ~ In 0 a -> In c a).
Proof.
  intros C. rewrite strchr_at. destruct (scan_chr_post c s (zlen pre) post) as [->|]; [|congruence].
  pose proof (scan_chr_inv c s (zlen pre) C) as H. destruct (scan_chr (s ++ [0]) c (zlen pre)) as [[q|]|]; [| |destruct H].
  - left. destruct H as (a & b & E & A & Z & ->). exists a, b. repeat split; assumption || reflexivity.
  - right. split; [reflexivity|exact H].
Qed.
Lemma strchr_hit pre a b c : c <> 0 -> ~ In c a -> ~ In 0 a -> strchr (pre ++ a ++ c :: b) (zlen pre) c = Some (Some (zlen pre + zlen a)).
Proof.
  intros C A Z. unfold strchr. rewrite skipn_pre, scan_chr_hit by assumption. rewrite zlen_app. pose proof (zlen_nonneg pre). pose proof (zlen_nonneg (a ++ c :: b)).
  destruct (Z.leb_spec 0 (zlen pre)); [|lia]. destruct (Z.leb_spec (zlen pre) (zlen pre + zlen (a ++ c :: b))); [|lia]. reflexivity.
Qed.

(** CR LF *)
Lemma no_crlf_tail x a : no_crlf (x :: a) -> no_crlf a.
Proof. intros H u v E. apply (H (x :: u) v). rewrite E. reflexivity. Qed.
Lemma no_crlf_cons x a : no_crlf a -> (x = 13 -> forall r, a <> 10 :: r) -> no_crlf (x :: a).
Proof.
  intros H D [|y u] v E.
  - injection E as -> E. exact (D eq_refl v E).
  - injection E as <- E. exact (H u v E).
Qed.
Lemma scan_crlf_hit a b : forall i, no_crlf a -> ~ In 0 a -> scan_crlf (a ++ 13 :: 10 :: b) i = Some (Some (i + zlen a)).
Proof.
  induction a as [|x a IH]; intros i A Z.
  - cbn. do 2 f_equal. lia.
  - cbn [app scan_crlf]. cbn in Z. destruct (Z.eqb_spec x 0); [tauto|].
    assert (K : scan_crlf (a ++ 13 :: 10 :: b) (i + 1) = Some (Some (i + zlen (x :: a)))).
    { rewrite IH; [|eapply no_crlf_tail; exact A|tauto]. rewrite zlen_cons. do 2 f_equal. lia. }
    destruct (Z.eqb_spec x 13) as [->|]; [|exact K]. destruct a as [|y a].
    + cbn [app] in K |- *. cbn [Z.eqb]. exact K.
    + cbn [app] in K |- *. destruct (Z.eqb_spec y 10) as [->|]; [|exact K]. exfalso. apply (A [] a). reflexivity.
Qed.
Lemma scan_crlf_cases : forall s i post,
  (exists a b, s = a ++ 13 :: 10 :: b /\ no_crlf a /\ ~ In 0 a /\ scan_crlf (s ++ 0 :: post) i = Some (Some (i + zlen a))) \/
  (scan_crlf (s ++ 0 :: post) i = Some None /\ forall a b, s = a ++ 13 :: 10 :: b -> ~ In 0 a -> False).
Proof.
  induction s as [|x s IH]; intros i post.
  - right. split; [reflexivity|]. intros [|? ?] ? E; discriminate.
  - cbn [app scan_crlf]. destruct (Z.eqb_spec x 0) as [->|D].
    + right. split; [reflexivity|]. intros [|y a] b E N; [discriminate|]. injection E as <- E. apply N. left. reflexivity.
    + assert (K : (forall r, x = 13 -> s <> 10 :: r) ->
        (exists a b, x :: s = a ++ 13 :: 10 :: b /\ no_crlf a /\ ~ In 0 a /\ scan_crlf (s ++ 0 :: post) (i + 1) = Some (Some (i + zlen a))) \/
        (scan_crlf (s ++ 0 :: post) (i + 1) = Some None /\ forall a b, x :: s = a ++ 13 :: 10 :: b -> ~ In 0 a -> False)).
      { intros Q. destruct (IH (i + 1) post) as [(a & b & E & A & Z & R)|(R & N)].
        - left. exists (x :: a), b. split; [rewrite E; reflexivity|]. split; [|split; [cbn; tauto|rewrite R, zlen_cons; do 2 f_equal; lia]].
          apply no_crlf_cons; [exact A|]. intros X r Y. destruct a as [|y a]; [discriminate|]. injection Y as -> Y. apply (Q (a ++ 13 :: 10 :: b) X). rewrite E. reflexivity.
        - right. split; [exact R|]. intros [|y a] b E Z.
          + injection E as X E. exact (Q b X E).
          + injection E as <- E. apply (N a b E). cbn in Z. tauto. }
      destruct (Z.eqb_spec x 13) as [->|].
      * destruct s as [|y s].
        -- cbn [app]. cbn [Z.eqb]. apply K. intros; discriminate.
        -- cbn [app]. destruct (Z.eqb_spec y 10) as [->|].
           ++ left. exists [], s. split; [reflexivity|]. split; [intros [|? ?] ? E; discriminate|]. split; [tauto|]. rewrite zlen_nil, Z.add_0_r. reflexivity.
           ++ apply K. intros r _ E. congruence.
      * apply K. intros; congruence.
Qed.
Lemma strstr_at pre s : strstr_crlf (pre ++ s) (zlen pre) = scan_crlf s (zlen pre).
Proof.
  unfold strstr_crlf. rewrite skipn_pre. rewrite zlen_app. pose proof (zlen_nonneg pre). pose proof (zlen_nonneg s).
  destruct (Z.leb_spec 0 (zlen pre)); [|lia]. destruct (Z.leb_spec (zlen pre) (zlen pre + zlen s)); [|lia]. reflexivity.
Qed.

(** ** Header fields *)
Lemma rd1_mid (a b : list Z) x i : i = zlen a -> rd1 (a ++ x :: b) i = Some x.
Proof. intros ->. unfold rd1. change (a ++ x :: b) with (a ++ [x] ++ b). change 1 with (zlen [x]). rewrite mread_mid. reflexivity. Qed.

Lemma name_eq_spec name : forall pre line post s, s = zlen pre -> (length name <= length line)%nat ->
  name_eq (pre ++ line ++ post) s name =
  Some (if list_eq_dec Z.eq_dec (map lower (firstn (length name) line)) (map lower name) then true else false).
Proof.
  induction name as [|c name IH]; intros pre line post s -> L; [reflexivity|].
  destruct line as [|x line]; [cbn in L; lia|]. cbn [name_eq app length firstn map].
  rewrite rd1_mid by reflexivity. cbn [obind]. change tolower with lower.
  destruct (Z.eqb_spec (lower x) (lower c)) as [E|D].
  - replace (pre ++ x :: line ++ post) with ((pre ++ [x]) ++ line ++ post) by (rewrite <- app_assoc; reflexivity).
    rewrite IH; [|rewrite zlen_app; reflexivity|cbn in L; lia].
    destruct (list_eq_dec Z.eq_dec (map lower (firstn (length name) line)) (map lower name)) as [E2|D2];
    destruct (list_eq_dec Z.eq_dec (lower x :: map lower (firstn (length name) line)) (lower c :: map lower name)) as [E3|D3]; congruence.
  - destruct (list_eq_dec Z.eq_dec (lower x :: map lower (firstn (length name) line)) (lower c :: map lower name)); congruence.
Qed.
Fixpoint ltrim (l : list Z) : list Z := match l with [] => [] | c :: r => if (c =? 32) || (c =? 9) then ltrim r else l end.
Lemma ltrim_spec l : exists ws, l = ws ++ ltrim l /\ Forall blank ws /\ match ltrim l with [] => True | c :: _ => ~ blank c end.
Proof.
  induction l as [|c l (ws & E & W & N)]; cbn [ltrim]; [exists []; split; [reflexivity|split; [constructor|exact I]]|].
  destruct ((c =? 32) || (c =? 9)) eqn:B.
  - exists (c :: ws). split; [cbn; f_equal; exact E|]. split; [constructor; [unfold blank; lia|exact W]|exact N].
  - exists []. split; [reflexivity|]. split; [constructor|]. unfold blank. lia.
Qed.
Lemma ltrim_unique ws v : Forall blank ws -> match v with [] => True | c :: _ => ~ blank c end -> ltrim (ws ++ v) = v.
Proof.
  intros W N. induction W as [|c ws B _ IH]; cbn [app].
  - destruct v as [|c v]; [reflexivity|]. cbn [ltrim]. unfold blank in N. destruct ((c =? 32) || (c =? 9)) eqn:E; [lia|reflexivity].
  - cbn [ltrim]. unfold blank in B. destruct ((c =? 32) || (c =? 9)) eqn:E; [exact IH|lia].
Qed.
Lemma skip_ws_spec : forall fuel l pre s i len post, s + i = zlen pre -> len - i = zlen l -> (length l < fuel)%nat ->
  skip_ws fuel (pre ++ l ++ post) s i len = Some (len - zlen (ltrim l)).
Proof.
  induction fuel as [|fuel IH]; intros l pre s i len post P L F; [lia|]. cbn [skip_ws].
  destruct l as [|c l].
  - rewrite zlen_nil in L. destruct (Z.ltb_spec i len); [lia|]. cbn [ltrim]. rewrite zlen_nil. f_equal. lia.
  - rewrite zlen_cons in L. pose proof (zlen_nonneg l). destruct (Z.ltb_spec i len); [|lia]. cbn [app].
    rewrite rd1_mid by exact P. cbn [obind ltrim]. destruct ((c =? 32) || (c =? 9)) eqn:B.
    + replace (pre ++ c :: l ++ post) with ((pre ++ [c]) ++ l ++ post) by (rewrite <- app_assoc; reflexivity).
      rewrite IH; [reflexivity|rewrite zlen_app; change (zlen [c]) with 1; lia|lia|cbn in F; lia].
    + rewrite zlen_cons. f_equal. lia.
Qed.

(** The value of header [name], as a function on the line. *)
Definition value_of (name line : list Z) : option (list Z) :=
  if list_eq_dec Z.eq_dec (map lower (firstn (length name) line)) (map lower name) then
    match skipn (length name) line with c :: r => if c =? 58 then Some (ltrim r) else None | [] => None end
  else None.
Lemma value_of_field name line v : value_of name line = Some v <-> field name line v.
Proof.
  unfold value_of, field. split.
  - destruct (list_eq_dec Z.eq_dec _ _) as [E|]; [|discriminate]. destruct (skipn (length name) line) as [|c r] eqn:K; [discriminate|].
    destruct (Z.eqb_spec c 58) as [->|]; [|discriminate]. intros X. injection X as <-. destruct (ltrim_spec r) as (ws & R & W & N).
    exists (firstn (length name) line), ws. split; [|split; [exact E|split; [exact W|exact N]]]. rewrite <- R, <- K. symmetry. apply firstn_skipn.
  - intros (n & ws & -> & E & W & N). assert (L : length n = length name) by (rewrite <- (map_length lower n), E, map_length; reflexivity).
    rewrite <- L, firstn_app, Nat.sub_diag, firstn_all. cbn [firstn]. rewrite app_nil_r. destruct (list_eq_dec Z.eq_dec _ _); [|congruence].
    rewrite skipn_app, Nat.sub_diag, skipn_all. cbn [skipn app]. rewrite Z.eqb_refl, ltrim_unique by assumption. reflexivity.
Qed.
Lemma header_value_spec name line pre post s n : s = zlen pre -> n = zlen line ->
  http_header_value (pre ++ line ++ post) s n name =
  Some (match value_of name line with Some v => Some (s + n - zlen v) | None => None end).
Proof.
  intros -> ->. unfold http_header_value, value_of.
  destruct (Z.ltb_spec (zlen line) (zlen name + 1)) as [L|L].
  - destruct (list_eq_dec Z.eq_dec _ _); [|reflexivity]. rewrite skipn_all2 by (unfold zlen in L; lia). reflexivity.
  - rewrite name_eq_spec by (reflexivity || unfold zlen in L; lia). cbn [obind].
    destruct (list_eq_dec Z.eq_dec _ _) as [E|D]; [|reflexivity]. cbn [negb].
    destruct (skipn (length name) line) as [|c r] eqn:K.
    { apply (f_equal (@length Z)) in K. rewrite skipn_length in K. unfold zlen in L. cbn in K. lia. }
    pose proof (firstn_skipn (length name) line) as FS. rewrite K in FS.
    assert (LN : length (firstn (length name) line) = length name) by (rewrite firstn_length; unfold zlen in L; lia).
    assert (ZN : zlen (firstn (length name) line) = zlen name) by (unfold zlen; rewrite LN; reflexivity).
    replace (pre ++ line ++ post) with ((pre ++ firstn (length name) line) ++ c :: r ++ post)
      by (rewrite <- FS at 2; rewrite <- !app_assoc; reflexivity).
    rewrite rd1_mid by (rewrite zlen_app; lia). cbn [obind]. destruct (Z.eqb_spec c 58) as [->|]; [|reflexivity]. cbn [negb].
    replace ((pre ++ firstn (length name) line) ++ 58 :: r ++ post) with (((pre ++ firstn (length name) line) ++ [58]) ++ r ++ post)
      by (rewrite <- !app_assoc; reflexivity).
    assert (ZL : zlen line = zlen name + 1 + zlen r) by (rewrite <- FS, zlen_app, zlen_cons; lia).
    rewrite skip_ws_spec; [cbn [obind]; do 2 f_equal; lia|rewrite !zlen_app; change (zlen [58]) with 1; lia|lia|unfold zlen in ZL; unfold zlen; lia].
Qed.

(** ** Content-Length *)
Definition isdig (c : Z) : bool := (48 <=? c) && (c <=? 57).
Lemma value10_mono v : forall a, 0 <= a -> Forall (fun c => 48 <= c <= 57) v -> a <= value10 v a.
Proof.
  induction v as [|c v IH]; intros a A F; cbn [value10]; [lia|]. inversion F as [|? ? C F']; subst.
  etransitivity; [|apply IH; [lia|exact F']]. lia.
Qed.
Lemma digits_spec : forall fuel v pre post d q cl, d = zlen pre -> q = d + zlen v -> (length v < fuel)%nat -> 0 <= cl <= 1024 ->
  exists r, digits fuel (pre ++ v ++ post) d q cl = Some r /\
    (forall k, r = Some (q, k) <-> Forall (fun c => 48 <= c <= 57) v /\ value10 v cl = k /\ k <= 1024).
Proof.
  induction fuel as [|fuel IH]; intros v pre post d q cl P Q F C; [lia|]. cbn [digits].
  destruct v as [|c v].
  - rewrite zlen_nil in Q. destruct (Z.ltb_spec d q); [lia|]. eexists. split; [reflexivity|]. intros k. cbn [value10]. split.
    + intros E. injection E as E1 E2. split; [constructor|]. lia.
    + intros (_ & E & _). do 2 f_equal; lia.
  - rewrite zlen_cons in Q. pose proof (zlen_nonneg v). destruct (Z.ltb_spec d q); [|lia]. cbn [app]. rewrite rd1_mid by exact P. cbn [obind].
    destruct ((48 <=? c) && (c <=? 57)) eqn:D.
    + destruct (Z.ltb_spec BODY_LEN (cl * 10 + (c - 48))) as [B|B]; unfold BODY_LEN in B.
      * eexists. split; [reflexivity|]. intros k. split; [discriminate|]. cbn [value10]. intros (G & E & K). inversion G; subst.
        pose proof (value10_mono v (cl * 10 + (c - 48)) ltac:(lia) ltac:(assumption)). lia.
      * replace (pre ++ c :: v ++ post) with ((pre ++ [c]) ++ v ++ post) by (rewrite <- app_assoc; reflexivity).
        destruct (IH v (pre ++ [c]) post (d + 1) q (cl * 10 + (c - 48))) as (r & E & K).
        { rewrite zlen_app; change (zlen [c]) with 1; lia. } { lia. } { cbn in F; lia. } { lia. }
        exists r. split; [exact E|]. intros k. rewrite K. cbn [value10]. split; intros (G & E1 & E2).
        { split; [constructor; [lia|exact G]|split; assumption]. } { inversion G; subst. split; [assumption|split; [reflexivity|assumption]]. }
    + eexists. split; [reflexivity|]. intros k. split; [intros E; injection E as E1 E2; lia|]. intros (G & _). inversion G; subst. lia.
Qed.

(** The framing headers, as a function on the line. *)
Definition dec_ok (v : list Z) : bool :=
  match v with [] => false | _ => forallb isdig v && (value10 v 0 <=? 1024) end.
Definition framing_l (line : list Z) (cl : Z) (te : bool) : option (Z * bool) :=
  match value_of content_length line with
  | Some v => if 0 <=? cl then None else if dec_ok v then Some (value10 v 0, te) else None
  | None => match value_of transfer_encoding line with Some _ => Some (cl, true) | None => Some (cl, te) end
  end.
Lemma digs_forallb v : forallb isdig v = true <-> Forall (fun c => 48 <= c <= 57) v.
Proof. rewrite forallb_forall, Forall_forall. unfold isdig. split; intros H x X; specialize (H x X); lia. Qed.
Lemma value_of_len name line v : value_of name line = Some v -> exists u, line = u ++ v.
Proof. intros H. apply value_of_field in H. destruct H as (n & ws & -> & _). exists (n ++ 58 :: ws). rewrite <- app_assoc. reflexivity. Qed.
Lemma framing_spec line pre post p n q cl te : p = zlen pre -> n = zlen line -> q = p + n ->
  framing (pre ++ line ++ post) p n q cl te = Some (framing_l line cl te).
Proof.
  intros P N Q. unfold framing, framing_l.
  rewrite (header_value_spec CONTENT_LENGTH line pre post p n P N). cbn [obind]. change CONTENT_LENGTH with content_length.
  destruct (value_of content_length line) as [v|] eqn:V.
  - destruct (Z.leb_spec 0 cl); [reflexivity|]. pose proof (zlen_nonneg v).
    destruct v as [|c v].
    + rewrite zlen_nil. destruct (Z.leb_spec q (p + n - 0)); [reflexivity|lia].
    + rewrite zlen_cons. pose proof (zlen_nonneg v). destruct (Z.leb_spec q (p + n - (1 + zlen v))); [lia|].
      destruct (value_of_len _ _ _ V) as (u & ->). rewrite zlen_app, zlen_cons in N.
      replace (pre ++ (u ++ c :: v) ++ post) with ((pre ++ u) ++ c :: v ++ post) by (rewrite <- !app_assoc; reflexivity).
      rewrite rd1_mid by (rewrite zlen_app; lia). cbn [obind].
      assert (W : forall k, Forall (fun c => 48 <= c <= 57) (c :: v) -> value10 (c :: v) 0 = k -> k <= 1024 -> dec_ok (c :: v) = true).
      { intros k F E K. unfold dec_ok. rewrite (proj2 (digs_forallb _) F), E. lia. }
      assert (W' : dec_ok (c :: v) = true -> Forall (fun c => 48 <= c <= 57) (c :: v) /\ value10 (c :: v) 0 <= 1024).
      { unfold dec_ok. intros X. apply andb_true_iff in X. rewrite digs_forallb in X. split; [apply X|lia]. }
      destruct ((c <? 48) || (57 <? c)) eqn:D.
      { destruct (dec_ok (c :: v)); [|reflexivity]. destruct (W' eq_refl) as [F _]. inversion F; subst. lia. }
      destruct (digits_spec (S (Z.to_nat (q - (p + n - (1 + zlen v))))) (c :: v) (pre ++ u) post (p + n - (1 + zlen v)) q 0) as (r & E & K).
      { rewrite zlen_app. lia. } { rewrite zlen_cons. lia. } { unfold zlen in *. cbn [length]. lia. } { lia. }
      cbn [app] in E. rewrite E. cbn [obind]. destruct r as [[d k]|].
      * destruct (Z.eqb_spec d q) as [->|ND]; cbn [negb].
        -- destruct (proj1 (K k) eq_refl) as (F & EV & KL). rewrite (W k F EV KL), EV. reflexivity.
        -- destruct (dec_ok (c :: v)) eqn:DO; [|reflexivity]. destruct (W' eq_refl) as [F KL].
           pose proof (proj2 (K (value10 (c :: v) 0)) (conj F (conj eq_refl KL))). congruence.
      * destruct (dec_ok (c :: v)) eqn:DO; [|reflexivity]. destruct (W' eq_refl) as [F KL].
        pose proof (proj2 (K (value10 (c :: v) 0)) (conj F (conj eq_refl KL))). congruence.
  - rewrite (header_value_spec TRANSFER_ENCODING line pre post p n P N). cbn [obind]. change TRANSFER_ENCODING with transfer_encoding.
    destruct (value_of transfer_encoding line); reflexivity.
Qed.

(** ** Strings in zeroed arrays *)
Lemma zeros_len n : 0 <= n -> zlen (zeros n) = n.
Proof. intros. unfold zeros, zlen. rewrite repeat_length. lia. Qed.
Lemma zeros_split a b : 0 <= a -> 0 <= b -> zeros (a + b) = zeros a ++ zeros b.
Proof. intros. unfold zeros. rewrite Z2Nat.inj_add by assumption. apply repeat_app. Qed.
Lemma zeros_S n : 1 <= n -> zeros n = 0 :: zeros (n - 1).
Proof. intros. unfold zeros. replace (Z.to_nat n) with (S (Z.to_nat (n - 1))) by lia. reflexivity. Qed.
Lemma zlen_length {A} (a b : list A) : zlen a = zlen b -> length a = length b.
Proof. unfold zlen. lia. Qed.
Lemma store_pad (N : Z) (J bs : list Z) : zlen J + zlen bs <= N ->
  mwrite (J ++ zeros (N - zlen J)) (zlen J) bs = Some ((J ++ bs) ++ zeros (N - zlen (J ++ bs))).
Proof.
  intros H. pose proof (zlen_nonneg bs). pose proof (zlen_nonneg J). rewrite zlen_app.
  replace (N - zlen J) with (zlen bs + (N - (zlen J + zlen bs))) by lia. rewrite zeros_split by lia.
  assert (L : length bs = length (zeros (zlen bs))) by (apply zlen_length; rewrite zeros_len by lia; reflexivity).
  rewrite (mwrite_mid J (zeros (zlen bs)) bs _ L).
  rewrite <- app_assoc. reflexivity.
Qed.
Lemma store_nul (N : Z) (J : list Z) : zlen J < N ->
  mwrite (J ++ zeros (N - zlen J)) (zlen J) [0] = Some (J ++ zeros (N - zlen J)).
Proof.
  intros H. rewrite store_pad by (change (zlen [0]) with 1; lia). f_equal. rewrite zlen_app. change (zlen [0]) with 1.
  rewrite (zeros_S (N - zlen J)) by lia. rewrite <- app_assoc. cbn [app]. do 3 f_equal. lia.
Qed.
Lemma store_string (N : Z) bs : zlen bs < N ->
  (do a <- mwrite (zeros N) 0 bs; mwrite a (zlen bs) [0]) = Some (bs ++ zeros (N - zlen bs)).
Proof.
  intros H. pose proof (store_pad N [] bs) as E. cbn [app] in E. rewrite zlen_nil, Z.sub_0_r in E. rewrite E by lia. cbn [obind].
  apply store_nul. exact H.
Qed.

(** ** The header buffer *)
Lemma join_snoc ls l : join (ls ++ [l]) = match ls with [] => l | _ => join ls ++ 13 :: 10 :: l end.
Proof.
  induction ls as [|a ls IH]; [reflexivity|]. cbn [app]. destruct ls as [|b ls]; [reflexivity|].
  change (join (a :: (b :: ls) ++ [l])) with (a ++ 13 :: 10 :: join ((b :: ls) ++ [l])). rewrite IH.
  change (join (a :: b :: ls)) with (a ++ 13 :: 10 :: join (b :: ls)). rewrite <- app_assoc. reflexivity.
Qed.
Lemma join_nonempty ls : Forall (fun l => l <> []) ls -> ls <> [] -> 0 < zlen (join ls).
Proof.
  intros F N. destruct ls as [|l ls]; [congruence|]. inversion F as [|? ? L _]; subst. destruct l as [|c l]; [congruence|].
  assert (E : exists t, join ((c :: l) :: ls) = c :: t) by (destruct ls; cbn [join app]; eexists; reflexivity).
  destruct E as (t & ->). rewrite zlen_cons. pose proof (zlen_nonneg t). lia.
Qed.
Definition pad (s : list Z) : list Z := s ++ zeros (1024 - zlen s).
Lemma add_header_spec acc line pre post p n : Forall (fun l => l <> []) acc -> p = zlen pre -> n = zlen line -> zlen (join acc) <= 1023 ->
  add_header (pre ++ line ++ post) (pad (join acc)) (zlen (join acc)) p n =
  Some (if 1024 <=? zlen (join (acc ++ [line])) then None else Some (pad (join (acc ++ [line])), zlen (join (acc ++ [line])))).
Proof.
  intros F -> -> J. unfold add_header. rewrite join_snoc. destruct acc as [|a acc].
  - change (zlen (join [])) with 0. change (pad (join [])) with (zeros 1024). change (0 <? 0) with false. cbn match. change HEADERS_LEN with 1024.
    rewrite !Z.add_0_l. destruct (Z.leb_spec 1024 (zlen line)); [reflexivity|]. change (0 <? 0) with false. cbn match. cbn [obind].
    rewrite mread_mid. cbn [obind]. pose proof (store_pad 1024 [] line) as S. change (zlen (@nil Z)) with 0 in S. cbn [app] in S. rewrite Z.sub_0_r in S.
    rewrite S by lia. cbn [obind]. rewrite (store_nul 1024 line) by lia. reflexivity.
  - pose proof (join_nonempty (a :: acc) F ltac:(discriminate)) as P. remember (join (a :: acc)) as Jn.
    destruct (Z.ltb_spec 0 (zlen Jn)); [|lia]. change (0 <? 2) with true. cbn match. change HEADERS_LEN with 1024.
    assert (L2 : zlen (Jn ++ 13 :: 10 :: line) = zlen Jn + 2 + zlen line) by (rewrite zlen_app, !zlen_cons; lia).
    rewrite L2. destruct (Z.leb_spec 1024 (zlen Jn + 2 + zlen line)); [reflexivity|]. pose proof (zlen_nonneg line).
    unfold pad. rewrite (store_pad 1024 Jn [13]) by (change (zlen [13]) with 1; lia). cbn [obind].
    replace (zlen Jn + 1) with (zlen (Jn ++ [13])) by (rewrite zlen_app; reflexivity).
    rewrite (store_pad 1024 (Jn ++ [13]) [10]) by (rewrite zlen_app; change (zlen [13]) with 1; change (zlen [10]) with 1; lia). cbn [obind].
    rewrite mread_mid. cbn [obind].
    replace (zlen Jn + 2) with (zlen ((Jn ++ [13]) ++ [10])) by (rewrite !zlen_app; change (zlen [13]) with 1; change (zlen [10]) with 1; lia).
    rewrite (store_pad 1024 ((Jn ++ [13]) ++ [10]) line) by (rewrite !zlen_app; change (zlen [13]) with 1; change (zlen [10]) with 1; lia). cbn [obind].
    replace (((Jn ++ [13]) ++ [10]) ++ line) with (Jn ++ 13 :: 10 :: line) by (rewrite <- !app_assoc; reflexivity).
    replace (zlen Jn + (2 + zlen line)) with (zlen (Jn ++ 13 :: 10 :: line)) by lia.
    rewrite store_nul by lia. cbn [obind]. do 3 f_equal. rewrite L2, !zlen_app. change (zlen [13]) with 1; change (zlen [10]) with 1. lia.
Qed.

(** ** The header loop *)
Fixpoint frm (ls : list (list Z)) (cl : Z) (te : bool) : option (Z * bool) :=
  match ls with
  | [] => Some (cl, te)
  | l :: ls' => match framing_l l cl te with Some (cl', te') => frm ls' cl' te' | None => None end
  end.
Definition line_ok (l : list Z) : Prop := l <> [] /\ no_crlf l /\ has_no 0 l.
Definition wire (ls : list (list Z)) : list Z := flat_map (fun l => l ++ [CR; LF]) ls.
Lemma wire_cons l ls : wire (l :: ls) = l ++ 13 :: 10 :: wire ls.
Proof. unfold wire. cbn [flat_map]. rewrite <- app_assoc. reflexivity. Qed.
Lemma nonempty_snoc acc l : Forall (fun l : list Z => l <> []) acc -> l <> [] -> Forall (fun l => l <> []) (acc ++ [l]).
Proof. intros. apply Forall_app. split; [assumption|]. constructor; [assumption|constructor]. Qed.

Lemma header_loop_inv : forall fuel rest pre post p e acc cl te, p = zlen pre -> e = p + zlen rest -> (length rest < fuel)%nat ->
  Forall (fun l => l <> []) acc -> zlen (join acc) <= 1023 ->
  exists r, header_loop fuel (pre ++ rest ++ 0 :: post) e p (pad (join acc)) (zlen (join acc)) cl te = Some r /\
  match r with
  | None => True
  | Some (p', hdr, cl', te') => exists lines fin body, rest = wire lines ++ fin /\ (fin = 13 :: 10 :: body \/ fin = [] /\ body = []) /\
      p' = e - zlen body /\ Forall line_ok lines /\ hdr = pad (join (acc ++ lines)) /\ zlen (join (acc ++ lines)) <= 1023 /\
      frm lines cl te = Some (cl', te')
  end.
Proof.
  induction fuel as [|fuel IH]; intros rest pre post p e acc cl te P E F A J; [lia|]. cbn [header_loop].
  destruct (Z.ltb_spec p e) as [L|L]; cbn [negb].
  2:{ eexists. split; [reflexivity|]. cbn iota beta. assert (rest = []) as -> by (apply zlen_zero; pose proof (zlen_nonneg rest); lia).
      exists [], [], []. rewrite (app_nil_r acc). rewrite zlen_nil in *. split; [reflexivity|]. split; [right; split; reflexivity|]. split; [lia|].
      split; [constructor|]. split; [reflexivity|]. split; [exact J|reflexivity]. }
  rewrite P. rewrite strstr_at. destruct (scan_crlf_cases rest (zlen pre) post) as [(a & b & R & NC & NZ & S)|(S & _)]; rewrite S; cbn [obind].
  2:{ eexists. split; [reflexivity|exact I]. }
  destruct (Z.eqb_spec (zlen pre + zlen a - zlen pre) 0) as [Z0|NZ0].
  { eexists. split; [reflexivity|]. cbn iota beta. assert (a = []) as -> by (apply zlen_zero; lia). cbn [app] in R.
    exists [], (13 :: 10 :: b), b. rewrite (app_nil_r acc). split; [exact R|]. split; [left; reflexivity|]. split.
    - rewrite R, !zlen_cons in E. rewrite zlen_nil. lia.
    - split; [constructor|]. split; [reflexivity|]. split; [exact J|reflexivity]. }
  destruct (Z.leb_spec HEADERS_LEN (zlen pre + zlen a - zlen pre)); [eexists; split; [reflexivity|exact I]|].
  assert (AN : a <> []) by (intros ->; rewrite zlen_nil in NZ0; lia).
  replace (pre ++ rest ++ 0 :: post) with (pre ++ a ++ (13 :: 10 :: b ++ 0 :: post)) by (rewrite R, <- app_assoc; reflexivity).
  rewrite framing_spec by lia. cbn [obind]. destruct (framing_l a cl te) as [[cl1 te1]|] eqn:FR; [|eexists; split; [reflexivity|exact I]].
  rewrite add_header_spec by (assumption || lia). cbn [obind].
  destruct (Z.leb_spec 1024 (zlen (join (acc ++ [a])))) as [HL|HL]; [eexists; split; [reflexivity|exact I]|].
  replace (pre ++ a ++ 13 :: 10 :: b ++ 0 :: post) with ((pre ++ a ++ [13; 10]) ++ b ++ 0 :: post) by (rewrite <- !app_assoc; reflexivity).
  assert (RL : zlen rest = zlen a + 2 + zlen b) by (rewrite R, zlen_app, !zlen_cons; lia).
  destruct (IH b (pre ++ a ++ [13; 10]) post (zlen pre + zlen a + 2) e (acc ++ [a]) cl1 te1) as (r & HR & K).
  { rewrite !zlen_app. change (zlen [13; 10]) with 2. lia. } { lia. } { unfold zlen in RL. lia. } { apply nonempty_snoc; assumption. } { lia. }
  exists r. split; [exact HR|]. destruct r as [[[[p' hdr] cl'] te']|]; [|exact I].
  destruct K as (lines & fin & body & B & FN & PP & OK & HD & JL & FM).
  exists (a :: lines), fin, body. rewrite wire_cons. split; [rewrite R, B, <- app_assoc; reflexivity|]. split; [exact FN|]. split; [exact PP|].
  split; [constructor; [split; [exact AN|split; [exact NC|exact NZ]]|exact OK]|]. rewrite <- app_assoc in HD, JL. cbn [app] in HD, JL.
  split; [exact HD|]. split; [exact JL|]. cbn [frm]. rewrite FR. exact FM.
Qed.

Lemma join_mono acc lines : zlen (join acc) <= zlen (join (acc ++ lines)).
Proof.
  revert acc. induction lines as [|l lines IH]; intros acc; [rewrite app_nil_r; lia|].
  replace (acc ++ l :: lines) with ((acc ++ [l]) ++ lines) by (rewrite <- app_assoc; reflexivity).
  etransitivity; [|apply IH]. rewrite join_snoc. destruct acc as [|a acc]; [change (zlen (join [])) with 0; apply zlen_nonneg|].
  rewrite zlen_app. pose proof (zlen_nonneg (13 :: 10 :: l)). lia.
Qed.
Lemma join_line acc l : zlen l <= zlen (join (acc ++ [l])).
Proof. rewrite join_snoc. destruct acc; [lia|]. rewrite zlen_app, !zlen_cons. pose proof (zlen_nonneg (join (l0 :: acc))). lia. Qed.

Lemma header_loop_fwd : forall lines fuel pre fin body post p e acc cl te cl' te', p = zlen pre -> e = p + zlen (wire lines ++ fin) ->
  (length (wire lines ++ fin) < fuel)%nat ->
  Forall (fun l => l <> []) acc -> Forall line_ok lines -> zlen (join (acc ++ lines)) <= 1023 ->
  fin = 13 :: 10 :: body \/ fin = [] /\ body = [] -> frm lines cl te = Some (cl', te') ->
  header_loop fuel (pre ++ (wire lines ++ fin) ++ 0 :: post) e p (pad (join acc)) (zlen (join acc)) cl te
    = Some (Some (e - zlen body, pad (join (acc ++ lines)), cl', te')).
Proof.
  induction lines as [|l lines IH]; intros fuel pre fin body post p e acc cl te cl' te' P E F A OK J FN FM.
  - destruct fuel; [lia|]. cbn [header_loop]. cbn [wire flat_map app] in *. injection FM as <- <-. rewrite (app_nil_r acc). destruct FN as [->|[-> ->]].
    + rewrite !zlen_cons in E. pose proof (zlen_nonneg body). destruct (Z.ltb_spec p e); [|lia]. cbn [negb]. rewrite P, strstr_at.
      pose proof (scan_crlf_hit [] (body ++ 0 :: post) (zlen pre)) as SC. cbn [app] in SC |- *. rewrite SC; [|intros [|? ?] ? X; discriminate|intros []]. cbn [obind].
      rewrite zlen_nil. destruct (Z.eqb_spec (zlen pre + 0 - zlen pre) 0); [|lia]. do 5 f_equal. lia.
    + change (zlen (@nil Z)) with 0 in *. destruct (Z.ltb_spec p e); [lia|]. cbn [negb]. do 5 f_equal. lia.
  - destruct fuel; [lia|]. cbn [header_loop]. inversion OK as [|? ? (LN & LC & LZ) OK']; subst.
    rewrite wire_cons in *. assert (RL : zlen ((l ++ 13 :: 10 :: wire lines) ++ fin) = zlen l + 2 + zlen (wire lines ++ fin))
      by (rewrite !zlen_app, !zlen_cons; lia). rewrite RL.
    pose proof (zlen_nonneg l). pose proof (zlen_nonneg (wire lines ++ fin)).
    destruct (Z.ltb_spec (zlen pre) (zlen pre + (zlen l + 2 + zlen (wire lines ++ fin)))); [|lia]. cbn [negb].
    replace (pre ++ ((l ++ 13 :: 10 :: wire lines) ++ fin) ++ 0 :: post) with (pre ++ l ++ (13 :: 10 :: (wire lines ++ fin) ++ 0 :: post))
      by (rewrite <- !app_assoc; cbn [app]; reflexivity).
    rewrite strstr_at, scan_crlf_hit by assumption. cbn [obind].
    assert (0 < zlen l) by (destruct l; [congruence|]; rewrite zlen_cons; pose proof (zlen_nonneg l); lia).
    destruct (Z.eqb_spec (zlen pre + zlen l - zlen pre) 0); [lia|].
    replace (acc ++ l :: lines) with ((acc ++ [l]) ++ lines) in J |- * by (rewrite <- app_assoc; reflexivity).
    pose proof (join_mono (acc ++ [l]) lines). pose proof (join_line acc l). pose proof (join_mono acc [l]).
    destruct (Z.leb_spec HEADERS_LEN (zlen pre + zlen l - zlen pre)) as [X|_]; [unfold HEADERS_LEN in X; lia|].
    rewrite framing_spec by lia. cbn [obind]. cbn [frm] in FM. destruct (framing_l l cl te) as [[cl1 te1]|]; [|discriminate].
    rewrite add_header_spec by (assumption || lia). cbn [obind].
    destruct (Z.leb_spec 1024 (zlen (join (acc ++ [l])))); [lia|].
    replace (pre ++ l ++ 13 :: 10 :: (wire lines ++ fin) ++ 0 :: post) with ((pre ++ l ++ [13; 10]) ++ (wire lines ++ fin) ++ 0 :: post)
      by (rewrite <- !app_assoc; reflexivity).
    apply IH; try assumption.
    + rewrite !zlen_app. change (zlen [13; 10]) with 2. lia.
    + lia.
    + unfold zlen in RL. lia.
    + apply nonempty_snoc; assumption.
Qed.

(** ** Framing *)
Lemma not_both l v w : value_of content_length l = Some v -> value_of transfer_encoding l = Some w -> False.
Proof.
  unfold value_of. destruct l as [|c l].
  - cbn. discriminate.
  - destruct (list_eq_dec Z.eq_dec (map lower (firstn (length content_length) (c :: l))) (map lower content_length)) as [E|]; [|discriminate].
    destruct (list_eq_dec Z.eq_dec (map lower (firstn (length transfer_encoding) (c :: l))) (map lower transfer_encoding)) as [E2|]; [|discriminate].
    cbn [content_length transfer_encoding length firstn map] in E, E2. exfalso. injection E as E _. injection E2 as E2 _.
    rewrite E2 in E. discriminate E.
Qed.
Definition cls (l : list Z) : Prop := exists v, value_of content_length l = Some v.
Definition tes (l : list Z) : Prop := exists v, value_of transfer_encoding l = Some v.
Lemma frm_te ls : forall cl te cl' te', frm ls cl te = Some (cl', te') -> (te' = false <-> te = false /\ forall l, In l ls -> ~ tes l).
Proof.
  induction ls as [|l ls IH]; intros cl te cl' te' H.
  - injection H as <- <-. cbn. tauto.
  - cbn [frm] in H. destruct (framing_l l cl te) as [[c1 t1]|] eqn:F; [|discriminate]. rewrite (IH _ _ _ _ H).
    assert (K : t1 = false <-> te = false /\ ~ tes l).
    { unfold framing_l in F. unfold tes. destruct (value_of content_length l) as [v|] eqn:V.
      - destruct (0 <=? cl); [discriminate|]. destruct (dec_ok v); [|discriminate]. injection F as _ <-.
        split; [intros T; split; [exact T|]|tauto]. intros (w & W). exact (not_both l v w V W).
      - destruct (value_of transfer_encoding l) as [w|] eqn:W; injection F as _ <-.
        + split; [discriminate|]. intros (_ & N). exfalso. apply N. eauto.
        + split; [intros T; split; [exact T|]|tauto]. intros (w & X). discriminate. }
    rewrite K. split.
    + intros ((T & N) & M). split; [exact T|]. intros x [<-|X]; [exact N|exact (M x X)].
    + intros (T & M). split; [split; [exact T|apply M; left; reflexivity]|]. intros x X. apply M. right. exact X.
Qed.
Lemma frm_seen ls : forall cl te cl' te', 0 <= cl -> frm ls cl te = Some (cl', te') -> cl' = cl /\ forall l, In l ls -> ~ cls l.
Proof.
  induction ls as [|l ls IH]; intros cl te cl' te' C H.
  - injection H as <- <-. cbn. tauto.
  - cbn [frm] in H. destruct (framing_l l cl te) as [[c1 t1]|] eqn:F; [|discriminate]. unfold framing_l in F.
    destruct (value_of content_length l) as [v|] eqn:V.
    + destruct (Z.leb_spec 0 cl); [discriminate|lia].
    + assert (c1 = cl) as -> by (destruct (value_of transfer_encoding l); injection F as <- _; reflexivity).
      destruct (IH _ _ _ _ C H) as [E N]. split; [exact E|]. intros x [<-|X]; [intros (v & W); congruence|exact (N x X)].
Qed.
Lemma frm_seen_fwd ls : forall cl te, (forall l, In l ls -> ~ cls l) -> exists te', frm ls cl te = Some (cl, te').
Proof.
  induction ls as [|l ls IH]; intros cl te N; [eexists; reflexivity|]. cbn [frm]. unfold framing_l.
  destruct (value_of content_length l) as [v|] eqn:V; [exfalso; apply (N l (or_introl eq_refl)); exists v; exact V|].
  destruct (value_of transfer_encoding l); apply IH; intros x X; apply N; right; exact X.
Qed.
Lemma dec_ok_decimal v k : k <= 1024 -> (dec_ok v = true /\ value10 v 0 = k <-> decimal v k).
Proof.
  intros K. unfold dec_ok, decimal. destruct v as [|c v]; [split; [intros [? _]; discriminate|intros (? & _); congruence]|].
  rewrite andb_true_iff, digs_forallb. split.
  - intros ((F & _) & E). split; [discriminate|]. split; assumption.
  - intros (_ & F & E). split; [split; [exact F|lia]|exact E].
Qed.
Lemma frm_cl ls : forall te cl' te', frm ls (-1) te = Some (cl', te') ->
  (cl' = -1 /\ forall l, In l ls -> ~ cls l) \/
  (0 <= cl' <= 1024 /\ exists l1 l v l2, ls = l1 ++ l :: l2 /\ value_of content_length l = Some v /\ decimal v cl' /\
     forall x, In x (l1 ++ l2) -> ~ cls x).
Proof.
  induction ls as [|l ls IH]; intros te cl' te' H.
  - injection H as <- <-. left. cbn. tauto.
  - cbn [frm] in H. destruct (framing_l l (-1) te) as [[c1 t1]|] eqn:F; [|discriminate]. unfold framing_l in F.
    destruct (value_of content_length l) as [v|] eqn:V.
    + change (0 <=? -1) with false in F. cbn iota in F. destruct (dec_ok v) eqn:D; [|discriminate]. injection F as <- <-.
      assert (DF : Forall (fun c => 48 <= c <= 57) v /\ value10 v 0 <= 1024).
      { unfold dec_ok in D. destruct v; [discriminate|]. apply andb_true_iff in D. rewrite digs_forallb in D. split; [apply D|lia]. }
      destruct DF as [DF DL]. pose proof (value10_mono v 0 ltac:(lia) DF).
      destruct (frm_seen ls _ _ _ _ H0 H) as [-> N]. right. split; [lia|]. exists [], l, v, ls. split; [reflexivity|]. split; [exact V|].
      split; [apply dec_ok_decimal; [exact DL|split; [exact D|reflexivity]]|]. exact N.
    + assert (c1 = -1) as -> by (destruct (value_of transfer_encoding l); injection F as <- _; reflexivity).
      assert (NL : ~ cls l) by (intros (v & W); congruence).
      destruct (IH _ _ _ H) as [(E & N)|(B & l1 & l0 & v & l2 & E & VV & D & N)].
      * left. split; [exact E|]. intros x [<-|X]; [exact NL|exact (N x X)].
      * right. split; [exact B|]. exists (l :: l1), l0, v, l2. split; [rewrite E; reflexivity|]. split; [exact VV|]. split; [exact D|].
        intros x [<-|X]; [exact NL|exact (N x X)].
Qed.
Lemma frm_one l1 l v l2 k : value_of content_length l = Some v -> decimal v k -> k <= 1024 -> (forall x, In x (l1 ++ l2) -> ~ cls x) ->
  forall te, exists te', frm (l1 ++ l :: l2) (-1) te = Some (k, te').
Proof.
  intros V D K. induction l1 as [|a l1 IH]; intros N te.
  - cbn [app frm]. unfold framing_l. rewrite V. change (0 <=? -1) with false. cbn iota.
    destruct (proj2 (dec_ok_decimal v k K) D) as [-> ->]. apply frm_seen_fwd. exact N.
  - cbn [app frm]. unfold framing_l. destruct (value_of content_length a) as [w|] eqn:W; [exfalso; apply (N a); [left; reflexivity|exists w; exact W]|].
    destruct (value_of transfer_encoding a); apply IH; intros x X; apply N; right; exact X.
Qed.
Lemma cls_field l : cls l <-> exists v, field content_length l v.
Proof. unfold cls. split; intros (v & H); exists v; apply value_of_field; exact H. Qed.
Lemma tes_field l : tes l <-> exists v, field transfer_encoding l v.
Proof. unfold tes. split; intros (v & H); exists v; apply value_of_field; exact H. Qed.
(** the loop's verdict on the framing headers is the specification's *)
Definition accept (cl : Z) (te : bool) (n : Z) : Prop := te = false /\ (0 <= cl /\ cl = n \/ cl < 0 /\ n = 0).
Lemma framed_iff ls body : zlen body <= 1024 ->
  (framed ls body <-> exists cl te, frm ls (-1) false = Some (cl, te) /\ accept cl te (zlen body)).
Proof.
  intros BL. unfold framed, accept. pose proof (zlen_nonneg body) as BN. split.
  - intros (T & C). assert (H : exists cl te, frm ls (-1) false = Some (cl, te) /\ (0 <= cl /\ cl = zlen body \/ cl < 0 /\ zlen body = 0)).
    { destruct C as [(N & ->)|(l1 & l & v & l2 & -> & F & D & N)].
      - destruct (frm_seen_fwd ls (-1) false) as (te & E); [intros l L X; apply cls_field in X; destruct X as (v & X); exact (N l v L X)|].
        exists (-1), te. split; [exact E|]. right. split; [lia|reflexivity].
      - apply value_of_field in F. destruct (frm_one l1 l v l2 (zlen body) F D BL) with (te := false) as (te & E).
        { intros x X Y. apply cls_field in Y. destruct Y as (w & Y). exact (N x w X Y). }
        exists (zlen body), te. split; [exact E|]. left. split; [lia|reflexivity]. }
    destruct H as (cl & te & E & A). exists cl, te. split; [exact E|]. split; [|exact A].
    apply (frm_te _ _ _ _ _ E). split; [reflexivity|]. intros l L X. apply tes_field in X. destruct X as (v & X). exact (T l v L X).
  - intros (cl & te & E & TE & A). split.
    + destruct (proj1 (frm_te _ _ _ _ _ E) TE) as [_ N]. intros l v L X. apply (N l L). apply tes_field. exists v. exact X.
    + destruct (frm_cl _ _ _ _ E) as [(C & N)|(C & l1 & l & v & l2 & EQ & V & D & N)].
      * left. split; [intros l v L X; apply (N l L); apply cls_field; exists v; exact X|]. apply zlen_zero. lia.
      * right. exists l1, l, v, l2. split; [exact EQ|]. split; [apply value_of_field; exact V|]. replace (zlen body) with cl by lia. split; [exact D|].
        intros x w X Y. apply (N x X). apply cls_field. exists w. exact Y.
Qed.
