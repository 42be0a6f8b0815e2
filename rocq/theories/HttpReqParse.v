(** Proofs for C64: request target, body and the whole parser. *)
From Verif Require Import Base HttpUrl HttpUrlProps HttpReq HttpReqSpec HttpReqProofs.
Local Ltac Zify.zify_post_hook ::= idtac.

(** A string [s] in a C array of [n] bytes: the string, its NUL, anything. *)
Definition holds (n : Z) (a s : list Z) : Prop := zlen a = n /\ exists junk, a = s ++ 0 :: junk.

Lemma memchr_mid pre s post c p n : p = zlen pre -> n = zlen s -> memchr (pre ++ s ++ post) p n c = Some (find_byte s c p).
Proof. intros -> ->. unfold memchr. rewrite mread_mid. reflexivity. Qed.
Lemma find_byte_in c s p : match find_byte s c p with Some _ => In c s | None => ~ In c s end.
Proof.
  pose proof (find_byte_spec c s p) as H. destruct (find_byte s c p); [|exact H]. destruct H as (a & b & -> & _).
  apply in_or_app. right. left. reflexivity.
Qed.
Lemma memchr_any_mid pre s post p n : p = zlen pre -> n = zlen s ->
  exists b, memchr_any (pre ++ s ++ post) p n 13 10 = Some b /\ (b = false <-> has_no CR s /\ has_no LF s).
Proof.
  intros P N. unfold memchr_any. rewrite memchr_mid by assumption. cbn [obind].
  pose proof (find_byte_in 13 s p) as A. destruct (find_byte s 13 p).
  - exists true. split; [reflexivity|]. unfold has_no, CR. split; [discriminate|tauto].
  - rewrite memchr_mid by assumption. cbn [obind]. pose proof (find_byte_in 10 s p) as B. destruct (find_byte s 10 p).
    + exists true. split; [reflexivity|]. unfold has_no, CR, LF. split; [discriminate|tauto].
    + exists false. split; [reflexivity|]. unfold has_no, CR, LF. tauto.
Qed.

(** The decoded path. *)
Lemma path_spec raw (k : list Z -> option (option (list Z * list Z))) : Forall byte raw -> zlen raw <= 127 ->
  exists r, (do path <- mwrite (zeros PATH_LEN) 0 raw;
   do path <- mwrite path (zlen raw) [0];
   do dec <- http_url_decode path (zlen raw);
   let '(path, dl) := dec in
   if dl <? 0 then Some None else
   do path <- mwrite path dl [0];
   do bad <- memchr_any path 0 dl 13 10;
   if (bad : bool) then Some None else k path) = r /\
  match pct_decode raw with
  | inl _ => r = Some None
  | inr path => exists a, holds 128 a path /\ exists b : bool, (b = false <-> has_no CR path /\ has_no LF path) /\ r = if b then Some None else k a
  end.
Proof.
  intros B L. eexists. split; [reflexivity|].
  pose proof (store_string PATH_LEN raw ltac:(unfold PATH_LEN; lia)) as S.
  destruct (mwrite (zeros PATH_LEN) 0 raw) as [a0|]; [|discriminate S]. cbn [obind] in S |- *. rewrite S. cbn [obind].
  change PATH_LEN with 128 in *.
  destruct (url_decode_exact raw (zeros (128 - zlen raw)) B) as (m' & ret & E & (s' & M & SL) & D). rewrite E. cbn [obind].
  destruct (pct_decode raw) as [e|path].
  - destruct D as [-> D]. destruct (Z.ltb_spec e 0); [reflexivity|lia].
  - destruct D as (-> & DL & FN). pose proof (zlen_nonneg path). destruct (Z.ltb_spec (zlen path) 0); [lia|].
    assert (ML : zlen m' = 128).
    { rewrite M, zlen_app, zeros_len by lia. assert (zlen s' = zlen raw) by (unfold zlen; rewrite SL; reflexivity). lia. }
    assert (MS : exists x rest, m' = path ++ x :: rest).
    { pose proof (firstn_skipn (length path) m') as FS. rewrite FN in FS. destruct (skipn (length path) m') as [|x rest] eqn:K.
      - apply (f_equal (@zlen Z)) in FS. rewrite app_nil_r in FS. lia.
      - exists x, rest. symmetry. exact FS. }
    destruct MS as (x & rest & ->). change (path ++ x :: rest) with (path ++ [x] ++ rest). rewrite (mwrite_mid path [x] [0] rest eq_refl). cbn [obind].
    destruct (memchr_any_mid [] path ([0] ++ rest) 0 (zlen path) eq_refl eq_refl) as (b & EB & IB). cbn [app] in EB |- *. rewrite EB. cbn [obind].
    exists (path ++ 0 :: rest). split; [split; [rewrite zlen_app, zlen_cons in *; lia|exists rest; reflexivity]|]. exists b. split; [exact IB|reflexivity].
Qed.

Definition target_ok (target raw path query : list Z) : Prop :=
  target_of target raw query /\ zlen raw <= 127 /\ pct_decode raw = inr path /\ has_no CR path /\ has_no LF path /\
  zlen query <= 255 /\ has_no CR query /\ has_no LF query.

Lemma target_split target : exists raw query, target_of target raw query.
Proof.
  pose proof (find_byte_spec 63 target 0) as H. destruct (find_byte target 63 0).
  - destruct H as (a & b & -> & N & _). exists a, b. split; [exact N|right; reflexivity].
  - exists target, []. split; [exact H|left; split; reflexivity].
Qed.
Lemma split_unique (c : Z) a b a' b' : ~ In c a -> ~ In c a' -> a ++ c :: b = a' ++ c :: b' -> a = a' /\ b = b'.
Proof.
  revert a'. induction a as [|x a IH]; intros [|y a'] N N' E; cbn in *.
  - injection E as E. split; [reflexivity|exact E].
  - injection E as E _. subst. exfalso. tauto.
  - injection E as E _. subst. exfalso. tauto.
  - injection E as -> E. destruct (IH a' ltac:(tauto) ltac:(tauto) E) as [-> ->]. split; reflexivity.
Qed.
Lemma target_of_unique target raw query raw' query' : target_of target raw query -> target_of target raw' query' -> raw = raw' /\ query = query'.
Proof.
  intros (N & [(-> & ->)|E]) (N' & [(E' & ->)|E']); unfold has_no in *.
  - subst. split; reflexivity.
  - exfalso. apply N. rewrite E'. apply in_or_app. right. left. reflexivity.
  - exfalso. apply N'. rewrite <- E', E. apply in_or_app. right. left. reflexivity.
  - rewrite E in E'. exact (split_unique 63 _ _ _ _ N N' E').
Qed.
Lemma zlen_lit1 (x : Z) : zlen [x] = 1. Proof. reflexivity. Qed.

Lemma target_spec target pre post p n : Forall byte target -> p = zlen pre -> n = zlen target ->
  exists r, parse_target (pre ++ target ++ post) p n = Some r /\
  ((r = None /\ forall raw path query, ~ target_ok target raw path query) \/
   (exists a q raw path query, r = Some (a, q) /\ target_ok target raw path query /\ holds 128 a path /\ holds 256 q query)).
Proof.
  intros B -> ->. unfold parse_target. rewrite memchr_mid by reflexivity. cbn [obind].
  destruct (target_split target) as (raw & query & T).
  assert (NO : forall r, (forall path, target_ok target raw path query -> False) -> r = None ->
    ((r = None /\ forall raw path query, ~ target_ok target raw path query) \/
     (exists a q raw path query, r = Some (a, q) /\ target_ok target raw path query /\ holds 128 a path /\ holds 256 q query))).
  { intros r F ->. left. split; [reflexivity|]. intros raw' path' query' TO. assert (T' := proj1 TO).
    destruct (target_of_unique _ _ _ _ _ T T') as [-> ->]. exact (F path' TO). }
  assert (BR : Forall byte raw).
  { destruct T as (_ & [(-> & _)|E]); [exact B|]. rewrite E in B. apply Forall_app in B. apply B. }
  pose proof (find_byte_spec 63 target (zlen pre)) as FB.
  destruct (find_byte target 63 (zlen pre)) as [qq|].
  - destruct FB as (a & b & E & N & ->). assert (T' : target_of target a b) by (split; [exact N|right; exact E]).
    destruct (target_of_unique _ _ _ _ _ T T') as [-> ->]. clear T'.
    replace (zlen pre + zlen a - zlen pre) with (zlen a) by lia.
    destruct (Z.leb_spec PATH_LEN (zlen a)) as [PL|PL]; unfold PATH_LEN in PL.
    { eexists. split; [reflexivity|]. apply NO; [|reflexivity]. intros path TO. destruct TO as (_ & X & _). lia. }
    replace (pre ++ target ++ post) with (pre ++ a ++ (63 :: b ++ post)) by (rewrite E, <- app_assoc; reflexivity).
    rewrite mread_mid. cbn [obind].
    destruct (path_spec a (fun path =>
      if QUERY_LEN <=? zlen target - zlen a - 1 then Some None else
      do bad <- memchr_any (pre ++ a ++ (63 :: b ++ post)) (zlen pre + zlen a + 1) (zlen target - zlen a - 1) 13 10;
      if (bad : bool) then Some None else
      do bs <- mread (pre ++ a ++ (63 :: b ++ post)) (zlen pre + zlen a + 1) (zlen target - zlen a - 1);
      do query <- mwrite (zeros QUERY_LEN) 0 bs;
      do query <- mwrite query (zlen target - zlen a - 1) [0];
      Some (Some (path, query))) BR ltac:(lia)) as (r & ER & HR). rewrite ER. clear ER.
    assert (QL : zlen target - zlen a - 1 = zlen b) by (rewrite E, zlen_app, zlen_cons; lia). rewrite QL in HR.
    destruct (pct_decode a) as [er|path] eqn:PD.
    { subst r. eexists. split; [reflexivity|]. apply NO; [|reflexivity]. intros path TO. destruct TO as (_ & _ & X & _). congruence. }
    destruct HR as (arr & HA & bad & IB & HR). destruct bad.
    { subst r. eexists. split; [reflexivity|]. apply NO; [|reflexivity]. intros path' TO. destruct TO as (_ & _ & X & Y1 & Y2 & _).
      assert (path' = path) by congruence. subst path'. assert (true = false) by (apply IB; split; assumption). discriminate. }
    destruct (proj1 IB eq_refl) as [P1 P2].
    destruct (Z.leb_spec QUERY_LEN (zlen b)) as [QB|QB]; unfold QUERY_LEN in QB.
    { subst r. eexists. split; [reflexivity|]. apply NO; [|reflexivity]. intros path' TO. destruct TO as (_ & _ & _ & _ & _ & X & _). lia. }
    replace (pre ++ a ++ 63 :: b ++ post) with ((pre ++ a ++ [63]) ++ b ++ post) in HR by (rewrite <- !app_assoc; reflexivity).
    assert (PO : zlen pre + zlen a + 1 = zlen (pre ++ a ++ [63])) by (rewrite !zlen_app, zlen_lit1; lia).
    destruct (memchr_any_mid (pre ++ a ++ [63]) b post _ _ PO eq_refl) as (bad2 & E2 & I2). rewrite E2 in HR. cbn [obind] in HR.
    destruct bad2.
    { subst r. eexists. split; [reflexivity|]. apply NO; [|reflexivity]. intros path' TO. destruct TO as (_ & _ & _ & _ & _ & _ & X1 & X2).
      assert (true = false) by (apply I2; split; assumption). discriminate. }
    destruct (proj1 I2 eq_refl) as [Q1 Q2].
    rewrite PO, mread_mid in HR. cbn [obind] in HR. pose proof (store_string QUERY_LEN b ltac:(unfold QUERY_LEN; lia)) as S.
    destruct (mwrite (zeros QUERY_LEN) 0 b) as [q0|]; [|discriminate S]. cbn [obind] in S, HR. rewrite S in HR. cbn [obind] in HR.
    subst r. eexists. split; [reflexivity|]. right. exists arr, (b ++ zeros (QUERY_LEN - zlen b)), a, path, b. split; [reflexivity|].
    split; [split; [exact T|]; split; [lia|]; split; [exact PD|]; split; [exact P1|]; split; [exact P2|]; split; [lia|split; assumption]|].
    split; [exact HA|]. pose proof (zlen_nonneg b). change QUERY_LEN with 256. split; [rewrite zlen_app, zeros_len by lia; lia|].
    exists (zeros (256 - zlen b - 1)). rewrite (zeros_S (256 - zlen b)) by lia. reflexivity.
  - assert (T' : target_of target target []) by (split; [exact FB|left; split; reflexivity]).
    destruct (target_of_unique _ _ _ _ _ T T') as [-> ->]. clear T'.
    destruct (Z.leb_spec PATH_LEN (zlen target)) as [PL|PL]; unfold PATH_LEN in PL.
    { eexists. split; [reflexivity|]. apply NO; [|reflexivity]. intros path TO. destruct TO as (_ & X & _). lia. }
    rewrite mread_mid. cbn [obind].
    destruct (path_spec target (fun path => Some (Some (path, zeros QUERY_LEN))) BR ltac:(lia)) as (r & ER & HR). rewrite ER. clear ER.
    destruct (pct_decode target) as [er|path] eqn:PD.
    { subst r. eexists. split; [reflexivity|]. apply NO; [|reflexivity]. intros path TO. destruct TO as (_ & _ & X & _). congruence. }
    destruct HR as (arr & HA & bad & IB & HR). destruct bad.
    { subst r. eexists. split; [reflexivity|]. apply NO; [|reflexivity]. intros path' TO. destruct TO as (_ & _ & X & Y1 & Y2 & _).
      assert (path' = path) by congruence. subst path'. assert (true = false) by (apply IB; split; assumption). discriminate. }
    destruct (proj1 IB eq_refl) as [P1 P2].
    subst r. eexists. split; [reflexivity|]. right. exists arr, (zeros QUERY_LEN), target, path, []. split; [reflexivity|].
    split; [split; [exact T|]; split; [lia|]; split; [exact PD|]; split; [exact P1|]; split; [exact P2|]; split; [unfold zlen; cbn; lia|split; intros []]|].
    split; [exact HA|]. split; [reflexivity|]. exists (zeros 255). reflexivity.
Qed.

(** ** The whole request *)
Definition sees (r : request) (v : view) : Prop :=
  holds 8 (r_method r) (v_method v) /\ holds 128 (r_path r) (v_path v) /\ holds 256 (r_query r) (v_query v) /\
  holds 1024 (r_headers r) (v_headers v) /\ holds 1024 (r_body r) (v_body v) /\ r_body_len r = zlen (v_body v).

Lemma holds_zeros n s : zlen s < n -> holds n (s ++ zeros (n - zlen s)) s.
Proof.
  intros L. pose proof (zlen_nonneg s). split; [rewrite zlen_app, zeros_len by lia; lia|]. exists (zeros (n - zlen s - 1)). rewrite (zeros_S (n - zlen s)) by lia. reflexivity.
Qed.
Lemma u64_small n : 0 <= n <= 1000000 -> u64 n = n.
Proof. intros. unfold u64. apply Z.mod_small. lia. Qed.

Lemma body_spec pre body post e p cl te method path query hdr : p = zlen pre -> e = p + zlen body -> zlen body <= 1000000 ->
  exists o, parse_body (pre ++ body ++ 0 :: post) e p cl te method path query hdr = Some o /\
  ((o = PBad /\ ~ accept cl te (zlen body)) \/
   (accept cl te (zlen body) /\ 1024 <= zlen body /\ o = PSilent) \/
   (accept cl te (zlen body) /\ zlen body <= 1023 /\ exists b, holds 1024 b body /\ o = PReq (Req method path query hdr b (zlen body)))).
Proof.
  intros P E L. pose proof (zlen_nonneg body) as BN. unfold parse_body. replace (e - p) with (zlen body) by lia. rewrite u64_small by lia.
  unfold accept. destruct te; [eexists; split; [reflexivity|]; left; split; [reflexivity|]; intros [? _]; discriminate|].
  destruct (if 0 <=? cl then negb (cl =? zlen body) else 0 <? zlen body) eqn:C.
  { eexists; split; [reflexivity|]. left. split; [reflexivity|]. intros [_ A]. destruct (Z.leb_spec 0 cl); lia. }
  assert (A : false = false /\ (0 <= cl /\ cl = zlen body \/ cl < 0 /\ zlen body = 0)) by (split; [reflexivity|]; destruct (Z.leb_spec 0 cl); lia).
  destruct (Z.ltb_spec 0 (zlen body)) as [G|G].
  - destruct (Z.leb_spec BODY_LEN (zlen body)) as [B|B]; unfold BODY_LEN in B.
    + eexists. split; [reflexivity|]. right. left. split; [exact A|]. split; [exact B|reflexivity].
    + rewrite P, mread_mid. cbn [obind]. pose proof (store_string BODY_LEN body ltac:(unfold BODY_LEN; lia)) as S.
      destruct (mwrite (zeros BODY_LEN) 0 body) as [b0|]; [|discriminate S]. cbn [obind] in S |- *. rewrite S. cbn [obind].
      eexists. split; [reflexivity|]. right. right. split; [exact A|]. split; [lia|]. eexists. split; [|reflexivity]. change BODY_LEN with 1024. apply holds_zeros. lia.
  - assert (body = []) as -> by (apply zlen_zero; lia). eexists. split; [reflexivity|]. right. right. split; [exact A|].
    change (zlen (@nil Z)) with 0. split; [lia|]. eexists. split; [|reflexivity]. split; [reflexivity|]. exists (zeros 1023). reflexivity.
Qed.

Lemma app_cons (a b : list Z) x : a ++ x :: b = (a ++ [x]) ++ b.
Proof. rewrite <- app_assoc. reflexivity. Qed.

Lemma parse_sound data post : Forall byte data -> zlen data <= 1000000 ->
  exists o, parse_request (data ++ 0 :: post) (zlen data) = Some o /\
  match o with
  | PBad => True
  | PSilent => exists v, request_bytes data v /\ zlen (v_body v) = 1024
  | PReq r => exists v, request_bytes data v /\ zlen (v_body v) <= 1023 /\ sees r v
  end.
Proof.
  intros B LD. unfold parse_request.
  destruct (Z.ltb_spec (zlen data) 4); [eexists; split; [reflexivity|exact I]|].
  destruct (strchr_cases [] data post 32 ltac:(lia)) as [(mt & d1 & E1 & NM & ZM & S1)|(S1 & _)]; cbn [app] in S1; change (zlen (@nil Z)) with 0 in S1; rewrite S1; cbn [obind].
  2:{ eexists; split; [reflexivity|exact I]. }
  rewrite Z.add_0_l. pose proof (zlen_nonneg mt). destruct (Z.leb_spec METHOD_LEN (zlen mt)) as [ML|ML]; unfold METHOD_LEN in ML; [eexists; split; [reflexivity|exact I]|].
  replace (data ++ 0 :: post) with ([] ++ mt ++ (32 :: d1 ++ 0 :: post)) by (rewrite E1; cbn [app]; rewrite <- app_assoc; reflexivity).
  change 0 with (zlen (@nil Z)) at 1. rewrite mread_mid. cbn [obind].
  pose proof (store_string METHOD_LEN mt ltac:(unfold METHOD_LEN; lia)) as S.
  destruct (mwrite (zeros METHOD_LEN) 0 mt) as [m0|]; [|discriminate S]. cbn [obind] in S |- *. rewrite S. cbn [obind]. clear S.
  replace ([] ++ mt ++ (32 :: d1 ++ 0 :: post)) with ((mt ++ [32]) ++ d1 ++ 0 :: post) by (rewrite <- app_assoc; reflexivity).
  assert (P1 : zlen mt + 1 = zlen (mt ++ [32])) by (rewrite zlen_app; reflexivity). rewrite P1.
  destruct (strchr_cases (mt ++ [32]) d1 post 32 ltac:(lia)) as [(target & d2 & E2 & NT & ZT & S2)|(S2 & _)]; rewrite S2; cbn [obind].
  2:{ eexists; split; [reflexivity|exact I]. }
  replace (zlen (mt ++ [32]) + zlen target - zlen (mt ++ [32])) with (zlen target) by lia.
  replace ((mt ++ [32]) ++ d1 ++ 0 :: post) with ((mt ++ [32]) ++ target ++ (32 :: d2 ++ 0 :: post)) by (rewrite E2, <- !app_assoc; reflexivity).
  assert (BT : Forall byte target). { rewrite E1 in B. apply Forall_app in B. destruct B as [_ B]. inversion B as [|? ? _ B2]; subst. apply Forall_app in B2. apply B2. }
  destruct (target_spec target (mt ++ [32]) (32 :: d2 ++ 0 :: post) _ _ BT eq_refl eq_refl) as (r & ER & HR). rewrite ER. cbn [obind]. clear ER.
  destruct HR as [(-> & _)|(pa & qa & raw & path & query & -> & TO & HP & HQ)]; [eexists; split; [reflexivity|exact I]|].
  replace ((mt ++ [32]) ++ target ++ (32 :: d2 ++ 0 :: post)) with ((mt ++ [32] ++ target ++ [32]) ++ d2 ++ 0 :: post) by (rewrite <- !app_assoc; reflexivity).
  replace (zlen (mt ++ [32]) + zlen target + 1) with (zlen (mt ++ [32] ++ target ++ [32])) by (rewrite !zlen_app, !zlen_lit1; lia).
  destruct (strchr_cases (mt ++ [32] ++ target ++ [32]) d2 post 13 ltac:(lia)) as [(ver & d3 & E3 & NV & ZV & S3)|(S3 & _)]; rewrite S3; cbn [obind].
  2:{ eexists; split; [reflexivity|exact I]. }
  assert (DL : zlen data = zlen (mt ++ [32] ++ target ++ [32]) + zlen ver + 1 + zlen d3).
  { rewrite E1, E2, E3, !zlen_app, !zlen_cons, !zlen_app, !zlen_cons, !zlen_app, !zlen_cons, !zlen_nil. lia. }
  remember (mt ++ [32] ++ target ++ [32]) as pre2 eqn:HP2.
  destruct d3 as [|eol rest].
  { (* the line ends with the data: p is one past the NUL *)
    rewrite zlen_nil in DL. cbn [header_loop]. destruct (Z.ltb_spec (zlen pre2 + zlen ver + 2) (zlen data)); [lia|]. cbn [negb obind].
    unfold parse_body. change (0 <=? -1) with false. cbn iota.
    replace (u64 (zlen data - (zlen pre2 + zlen ver + 2))) with 18446744073709551615 by (replace (zlen data - (zlen pre2 + zlen ver + 2)) with (-1) by lia; reflexivity).
    eexists. split; [reflexivity|exact I]. }
  rewrite zlen_cons in DL.
  replace (pre2 ++ d2 ++ 0 :: post) with ((pre2 ++ ver ++ [13; eol]) ++ rest ++ 0 :: post) by (rewrite E3, <- !app_assoc; reflexivity).
  assert (P3 : zlen pre2 + zlen ver + 2 = zlen (pre2 ++ ver ++ [13; eol])) by (rewrite !zlen_app; change (zlen [13; eol]) with 2; lia).
  assert (L0 : zlen (join []) <= 1023) by (vm_compute; discriminate).
  destruct (header_loop_inv (S (Z.to_nat (zlen data))) rest (pre2 ++ ver ++ [13; eol]) post (zlen pre2 + zlen ver + 2) (zlen data) [] (-1) false P3 ltac:(lia)
    ltac:(unfold zlen in DL; unfold zlen; lia) (Forall_nil _) L0) as (hr & EH & HH).
  change (pad (join [])) with (zeros HEADERS_LEN) in EH. change (zlen (join [])) with 0 in EH. rewrite EH. cbn [obind]. clear EH.
  destruct hr as [[[[p' hdr] cl] te]|]; [|eexists; split; [reflexivity|exact I]].
  destruct HH as (lines & fin & body & ERS & FN & PP & OK & HD & JL & FM). cbn [app] in HD, JL. subst p'.
  (* where the body is *)
  assert (BP : exists preb, (pre2 ++ ver ++ [13; eol]) ++ rest ++ 0 :: post = preb ++ body ++ 0 :: post /\ zlen preb = zlen data - zlen body).
  { assert (RB : exists x, rest = x ++ body) by (destruct FN as [->|[-> ->]]; [exists (wire lines ++ [13; 10]); rewrite ERS, <- app_assoc; reflexivity|exists rest; rewrite app_nil_r; reflexivity]).
    destruct RB as (x & RB). exists ((pre2 ++ ver ++ [13; eol]) ++ x). split; [rewrite RB, <- !app_assoc; reflexivity|].
    rewrite zlen_app, <- P3. rewrite RB, zlen_app in DL. lia. }
  destruct BP as (preb & -> & PB). pose proof (zlen_nonneg preb). pose proof (zlen_nonneg body).
  assert (MH : holds 8 (mt ++ zeros (METHOD_LEN - zlen mt)) mt) by (change METHOD_LEN with 8; apply holds_zeros; lia).
  destruct (body_spec preb body post (zlen data) (zlen data - zlen body) cl te (mt ++ zeros (METHOD_LEN - zlen mt)) pa qa hdr) as (o & EO & HO); [lia|lia|lia|].
  rewrite EO. exists o. split; [reflexivity|].
  assert (RB : accept cl te (zlen body) -> zlen body <= 1024 -> request_bytes data (View mt path query (join lines) body)).
  { intros A BL. exists target, raw, ver, eol, lines, fin. cbn [v_method v_path v_query v_headers v_body].
    destruct TO as (T1 & T2 & T3 & T4 & T5 & T6 & T7 & T8).
    split; [rewrite E1, E2, E3, ERS; unfold wire; rewrite <- ?app_assoc; reflexivity|].
    split; [exact FN|]. split; [exact NM|]. split; [exact NT|]. split; [exact NV|]. split; [exact ZM|]. split; [exact ZT|]. split; [exact ZV|]. split; [lia|].
    split; [exact T1|]. split; [exact T2|]. split; [exact T3|]. split; [exact T4|]. split; [exact T5|]. split; [exact T6|]. split; [exact T7|]. split; [exact T8|].
    split; [exact OK|]. split; [reflexivity|]. split; [exact JL|]. split; [|exact BL]. apply framed_iff; [exact BL|]. exists cl, te. split; [exact FM|exact A]. }
  assert (A1024 : accept cl te (zlen body) -> zlen body <= 1024).
  { intros (_ & [(C1 & C2)|(C1 & C2)]); [|lia]. destruct (frm_cl _ _ _ _ FM) as [(X & _)|(X & _)]; lia. }
  destruct HO as [(-> & _)|[(A & L1 & ->)|(A & L1 & b & HB & ->)]]; [exact I| |].
  - exists (View mt path query (join lines) body). split; [apply RB; [exact A|apply A1024; exact A]|]. cbn. specialize (A1024 A). lia.
  - exists (View mt path query (join lines) body). split; [apply RB; [exact A|lia]|]. split; [exact L1|].
    split; [exact MH|]. split; [exact HP|]. split; [exact HQ|]. split; [|split; [exact HB|reflexivity]].
    cbn [r_headers v_headers]. rewrite HD. unfold pad. apply holds_zeros. lia.
Qed.

Lemma parse_complete data post v : Forall byte data -> zlen data <= 1000000 -> request_bytes data v ->
  exists o, parse_request (data ++ 0 :: post) (zlen data) = Some o /\
  ((zlen (v_body v) <= 1023 /\ exists r, o = PReq r /\ sees r v) \/ (zlen (v_body v) = 1024 /\ o = PSilent)).
Proof.
  intros B LD (target & raw & ver & eol & lines & fin & ED & FN & NM & NT & NV & ZM & ZT & ZV & ML & T1 & T2 & T3 & T4 & T5 & T6 & T7 & T8 & OK & HJ & JL & FR & BL).
  destruct v as [mt path query hdrs body]. cbn [v_method v_path v_query v_headers v_body] in *. subst hdrs.
  assert (TO : target_ok target raw path query) by (repeat (split; [assumption|]); assumption).
  unfold has_no, SP, CR in NM, NT, NV, ZM, ZT, ZV.
  assert (DL : zlen data = zlen mt + 1 + zlen target + 1 + zlen ver + 2 + zlen (wire lines ++ fin)).
  { rewrite ED. unfold wire. rewrite !zlen_app, !zlen_cons, !zlen_app, !zlen_cons, !zlen_app, !zlen_cons, !zlen_app. lia. }
  pose proof (zlen_nonneg mt). pose proof (zlen_nonneg target). pose proof (zlen_nonneg ver). pose proof (zlen_nonneg (wire lines ++ fin)).
  assert (BT : Forall byte target). { rewrite ED in B. apply Forall_app in B. destruct B as [_ B]. inversion B as [|? ? _ B2]; subst. apply Forall_app in B2. apply B2. }
  unfold parse_request. destruct (Z.ltb_spec (zlen data) 4); [lia|].
  assert (EM : data ++ 0 :: post = [] ++ mt ++ 32 :: (target ++ 32 :: ver ++ 13 :: eol :: (wire lines ++ fin) ++ 0 :: post)).
  { rewrite ED. cbn [app]. unfold wire. repeat (progress (rewrite <- ?app_assoc; cbn [app])). reflexivity. }
  rewrite EM. change 0 with (zlen (@nil Z)) at 1. rewrite strchr_hit by (assumption || lia). cbn [obind]. change (zlen (@nil Z)) with 0. rewrite Z.add_0_l.
  destruct (Z.leb_spec METHOD_LEN (zlen mt)) as [X|_]; [unfold METHOD_LEN in X; lia|].
  change 0 with (zlen (@nil Z)) at 1. rewrite mread_mid. cbn [obind].
  pose proof (store_string METHOD_LEN mt ltac:(unfold METHOD_LEN; lia)) as S.
  destruct (mwrite (zeros METHOD_LEN) 0 mt) as [m0|]; [|discriminate S]. cbn [obind] in S |- *. rewrite S. cbn [obind]. clear S.
  replace ([] ++ mt ++ 32 :: (target ++ 32 :: ver ++ 13 :: eol :: (wire lines ++ fin) ++ 0 :: post))
    with ((mt ++ [32]) ++ target ++ 32 :: (ver ++ 13 :: eol :: (wire lines ++ fin) ++ 0 :: post)) by (rewrite <- !app_assoc; reflexivity).
  assert (P1 : zlen mt + 1 = zlen (mt ++ [32])) by (rewrite zlen_app; reflexivity). rewrite P1.
  rewrite strchr_hit by (assumption || lia). cbn [obind].
  replace (zlen (mt ++ [32]) + zlen target - zlen (mt ++ [32])) with (zlen target) by lia.
  destruct (target_spec target (mt ++ [32]) (32 :: (ver ++ 13 :: eol :: (wire lines ++ fin) ++ 0 :: post)) _ _ BT eq_refl eq_refl) as (r & ER & HR). rewrite ER. cbn [obind]. clear ER.
  destruct HR as [(_ & NO)|(pa & qa & raw' & path' & query' & -> & TO' & HP & HQ)]; [destruct (NO _ _ _ TO)|].
  destruct (target_of_unique _ _ _ _ _ (proj1 TO) (proj1 TO')) as [<- <-].
  assert (path' = path) as -> by (destruct TO' as (_ & _ & X & _); congruence).
  replace ((mt ++ [32]) ++ target ++ 32 :: (ver ++ 13 :: eol :: (wire lines ++ fin) ++ 0 :: post))
    with ((mt ++ [32] ++ target ++ [32]) ++ ver ++ 13 :: (eol :: (wire lines ++ fin) ++ 0 :: post)) by (rewrite <- !app_assoc; reflexivity).
  replace (zlen (mt ++ [32]) + zlen target + 1) with (zlen (mt ++ [32] ++ target ++ [32])) by (rewrite !zlen_app, !zlen_lit1; lia).
  rewrite strchr_hit by (assumption || lia). cbn [obind].
  assert (PL2 : zlen (mt ++ [32] ++ target ++ [32]) = zlen mt + 1 + zlen target + 1) by (rewrite !zlen_app, !zlen_lit1; lia).
  remember (mt ++ [32] ++ target ++ [32]) as pre2 eqn:HP2.
  replace (pre2 ++ ver ++ 13 :: eol :: (wire lines ++ fin) ++ 0 :: post) with ((pre2 ++ ver ++ [13; eol]) ++ (wire lines ++ fin) ++ 0 :: post)
    by (rewrite <- !app_assoc; reflexivity).
  destruct (proj1 (framed_iff lines body BL) FR) as (cl & te & FM & AC).
  assert (P3 : zlen pre2 + zlen ver + 2 = zlen (pre2 ++ ver ++ [13; eol])) by (rewrite !zlen_app; change (zlen [13; eol]) with 2; lia).
  pose proof (header_loop_fwd lines (S (Z.to_nat (zlen data))) (pre2 ++ ver ++ [13; eol]) fin body post (zlen pre2 + zlen ver + 2) (zlen data) [] (-1) false cl te P3
    ltac:(lia) ltac:(unfold zlen in DL |- *; lia) (Forall_nil _) OK JL FN FM) as EH.
  change (pad (join [])) with (zeros HEADERS_LEN) in EH. change (zlen (join [])) with 0 in EH. rewrite EH. cbn [obind]. clear EH.
  assert (BP : exists preb, (pre2 ++ ver ++ [13; eol]) ++ (wire lines ++ fin) ++ 0 :: post = preb ++ body ++ 0 :: post /\ zlen preb = zlen data - zlen body).
  { assert (RB : exists x, wire lines ++ fin = x ++ body) by (destruct FN as [->|[-> ->]]; [exists (wire lines ++ [13; 10]); rewrite <- app_assoc; reflexivity|exists (wire lines); reflexivity]).
    destruct RB as (x & RB). exists ((pre2 ++ ver ++ [13; eol]) ++ x). split; [rewrite RB, <- !app_assoc; reflexivity|].
    rewrite zlen_app, <- P3. rewrite RB, zlen_app in DL. lia. }
  destruct BP as (preb & -> & PB). pose proof (zlen_nonneg preb). pose proof (zlen_nonneg body).
  destruct (body_spec preb body post (zlen data) (zlen data - zlen body) cl te (mt ++ zeros (METHOD_LEN - zlen mt)) pa qa (pad (join ([] ++ lines)))) as (o & EO & HO); [lia|lia|lia|].
  rewrite EO. exists o. split; [reflexivity|].
  destruct HO as [(_ & NA)|[(_ & L1 & ->)|(_ & L1 & b & HB & ->)]]; [tauto| |].
  - right. split; [lia|reflexivity].
  - left. split; [exact L1|]. eexists. split; [reflexivity|]. split; [cbn [r_method v_method]; change METHOD_LEN with 8; apply holds_zeros; lia|].
    split; [exact HP|]. split; [exact HQ|]. split; [|split; [exact HB|reflexivity]].
    cbn [r_headers v_headers app]. unfold pad. apply holds_zeros. lia.
Qed.
