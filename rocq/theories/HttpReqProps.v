(** C64 (requests) and C65 (request arguments). *)
From Verif Require Import Base HttpUrl HttpUrlProps HttpReq HttpReqSpec HttpReqProofs HttpReqParse.
Local Ltac Zify.zify_post_hook ::= idtac.

(** ** The page table *)
Definition path_ok (p : list Z) : Prop := p <> [] /\ has_no 0 p /\ zlen p <= 127.
Definition do_register (us : list url) (r : list Z * page) : list url * Z :=
  match snd r with
  | Handler h => httpd_register_handler us (fst r) h
  | Static c => httpd_register_static_page us (fst r) c
  end.
(** the table after registering [ps], in that order, on a fresh server *)
Definition table (ps : pages) : list url := fold_left (fun us r => fst (do_register us r)) ps urls0.

Definition slot (r : list Z * page) : url :=
  match snd r with Handler h => Url (copy_path (fst r)) (Some h) None | Static c => Url (copy_path (fst r)) None (Some c) end.

Lemma copy_path_ok p : path_ok p -> copy_path p = p ++ zeros (128 - zlen p).
Proof.
  intros (_ & _ & L). unfold copy_path. change (PATH_LEN - 1) with 127. change PATH_LEN with 128. pose proof (zlen_nonneg p).
  replace 128 with ((127 - zlen p) + (1 + zlen p)) at 1 by lia. rewrite zeros_split by lia.
  rewrite app_assoc, firstn_app.
  assert (E : length (p ++ zeros (127 - zlen p)) = Z.to_nat 127).
  { apply Nat2Z.inj. change (Z.of_nat (length (p ++ zeros (127 - zlen p)))) with (zlen (p ++ zeros (127 - zlen p))). rewrite zlen_app, zeros_len by lia. lia. }
  rewrite E, Nat.sub_diag, firstn_O, app_nil_r. rewrite <- E, firstn_all.
  replace (128 - zlen p) with ((127 - zlen p) + 1) by lia. rewrite zeros_split by lia. rewrite <- app_assoc. reflexivity.
Qed.
Lemma slot_used r : path_ok (fst r) -> (nth 0 (u_path (slot r)) 0 =? 0) = false.
Proof.
  intros H. assert (E : u_path (slot r) = copy_path (fst r)) by (unfold slot; destruct (snd r); reflexivity). rewrite E, copy_path_ok by exact H.
  destruct H as (N & Z & _). destruct (fst r) as [|c p]; [congruence|]. cbn. apply Z.eqb_neq. intros ->. apply Z. left. reflexivity.
Qed.
Lemma register_slots f : forall ps k, Forall (fun r => path_ok (fst r)) ps ->
  register (map slot ps ++ repeat no_url k) f = match k with O => None | S k' => Some (map slot ps ++ f no_url :: repeat no_url k') end.
Proof.
  induction ps as [|r ps IH]; intros k F.
  - cbn [map app]. destruct k; reflexivity.
  - inversion F as [|? ? H F']; subst. cbn [map app register]. rewrite slot_used by exact H. rewrite IH by exact F'. destruct k; reflexivity.
Qed.
Lemma table_slots_gen : forall qs ps k, Forall (fun r => path_ok (fst r)) (ps ++ qs) -> 
  fold_left (fun us r => fst (do_register us r)) qs (map slot ps ++ repeat no_url k) =
  map slot (ps ++ firstn k qs) ++ repeat no_url (k - length qs).
Proof.
  induction qs as [|q qs IH]; intros ps k F.
  - rewrite firstn_nil, app_nil_r, Nat.sub_0_r. reflexivity.
  - cbn [fold_left].
    assert (FP : Forall (fun r => path_ok (fst r)) ps) by (apply Forall_app in F; apply F).
    assert (E : fst (do_register (map slot ps ++ repeat no_url k) q) = match k with O => map slot ps ++ repeat no_url k | S k' => map slot (ps ++ [q]) ++ repeat no_url k' end).
    { unfold do_register, httpd_register_handler, httpd_register_static_page. destruct q as [p [h|c]]; cbn [fst snd]; rewrite register_slots by exact FP; destruct k; try reflexivity;
        cbn [fst]; rewrite map_app, <- app_assoc; reflexivity. }
    rewrite E. destruct k as [|k].
    + rewrite IH by (apply Forall_app in F; destruct F as [A B]; inversion B; subst; apply Forall_app; split; assumption). reflexivity.
    + rewrite IH by (rewrite <- app_assoc; exact F). rewrite <- app_assoc. reflexivity.
Qed.
Lemma table_slots ps : Forall (fun r => path_ok (fst r)) ps -> table ps = map slot (firstn 16 ps) ++ repeat no_url (16 - length ps).
Proof. intros F. apply (table_slots_gen ps [] 16%nat F). Qed.

(** C64.  Registration: 0 and a new page while there are fewer than sixteen, -1 and
    no change after that. *)
Theorem register_result : forall ps r, Forall (fun r => path_ok (fst r)) (ps ++ [r]) ->
  do_register (table ps) r = if (Z.of_nat (length ps) <? 16) then (table (ps ++ [r]), 0) else (table ps, -1).
Proof.
  intros ps r F. assert (FP : Forall (fun r => path_ok (fst r)) ps) by (apply Forall_app in F; apply F).
  assert (T : table (ps ++ [r]) = fst (do_register (table ps) r)) by (unfold table; rewrite fold_left_app; reflexivity). rewrite T.
  assert (R : snd (do_register (table ps) r) = if (Z.of_nat (length ps) <? 16) then 0 else -1).
  { rewrite table_slots by exact FP. assert (FF : Forall (fun r => path_ok (fst r)) (firstn 16 ps)) by (apply Forall_forall; intros x X; rewrite Forall_forall in FP; apply FP; rewrite <- (firstn_skipn 16 ps); apply in_or_app; left; exact X).
    unfold do_register, httpd_register_handler, httpd_register_static_page. destruct (snd r); rewrite register_slots by exact FF;
      destruct (Z.ltb_spec (Z.of_nat (length ps)) 16); destruct (16 - length ps)%nat eqn:K; try reflexivity; exfalso; lia. }
  assert (U : (Z.of_nat (length ps) <? 16) = false -> fst (do_register (table ps) r) = table ps).
  { intros G. rewrite <- T. rewrite !table_slots by assumption. rewrite app_length. cbn [length].
    replace (16 - (length ps + 1))%nat with 0%nat by lia. replace (16 - length ps)%nat with 0%nat by lia. f_equal. f_equal.
    rewrite firstn_app. replace (16 - length ps)%nat with 0%nat by lia. cbn [firstn]. apply app_nil_r. }
  destruct (do_register (table ps) r) as [us rc]. cbn [fst snd] in *. rewrite R. destruct (Z.ltb_spec (Z.of_nat (length ps)) 16); [reflexivity|]. rewrite U by lia. reflexivity.
Qed.

(** ** C strings *)
Lemma strcmp_spec : forall s t j j', strcmp_eq (s ++ 0 :: j) (t ++ 0 :: j') = Some (if list_eq_dec Z.eq_dec (cstr s) (cstr t) then true else false).
Proof.
  induction s as [|x s IH]; intros t j j'.
  - cbn [app cstr strcmp_eq]. destruct t as [|y t]; cbn [app cstr].
    + rewrite Z.eqb_refl. cbn. reflexivity.
    + rewrite (Z.eqb_sym 0 y). destruct (Z.eqb_spec y 0) as [->|].
      * cbn. reflexivity.
      * destruct (list_eq_dec Z.eq_dec [] (y :: cstr t)); [discriminate|reflexivity].
  - cbn [app cstr strcmp_eq]. destruct t as [|y t]; cbn [app cstr].
    + destruct (Z.eqb_spec x 0); [subst; cbn; reflexivity|]. destruct (list_eq_dec Z.eq_dec (x :: cstr s) []); [discriminate|reflexivity].
    + destruct (Z.eqb_spec x y) as [->|D].
      * destruct (Z.eqb_spec y 0) as [->|]; [cbn; reflexivity|]. rewrite IH.
        destruct (list_eq_dec Z.eq_dec (cstr s) (cstr t)); destruct (list_eq_dec Z.eq_dec (y :: cstr s) (y :: cstr t)); congruence.
      * destruct (Z.eqb_spec x 0) as [->|]; destruct (Z.eqb_spec y 0) as [->|]; try congruence;
          destruct (list_eq_dec Z.eq_dec _ _); congruence.
Qed.
Lemma cstr_id s : has_no 0 s -> cstr s = s.
Proof. induction s as [|c s IH]; intros H; [reflexivity|]. cbn [cstr]. unfold has_no in *. cbn in H. destruct (Z.eqb_spec c 0); [tauto|]. rewrite IH by tauto. reflexivity. Qed.
Lemma holds_strcmp n n' a b s t : holds n a s -> holds n' b t -> strcmp_eq a b = Some (if list_eq_dec Z.eq_dec (cstr s) (cstr t) then true else false).
Proof. intros (_ & j & ->) (_ & j' & ->). apply strcmp_spec. Qed.

Lemma find_in_slots path arr rest : holds 128 arr path -> forall ps, Forall (fun r => path_ok (fst r)) ps ->
  http_find_url (map slot ps ++ rest) arr =
  match lookup ps (cstr path) with
  | Some g => Some (Some (match g with Handler h => Url (copy_path (cstr path)) (Some h) None | Static c => Url (copy_path (cstr path)) None (Some c) end))
  | None => http_find_url rest arr
  end.
Proof.
  intros HA. induction ps as [|[p g] ps IH]; intros F; [reflexivity|]. inversion F as [|? ? H F']; subst. cbn [map app http_find_url lookup]. cbn [fst] in H.
  assert (E : u_path (slot (p, g)) = p ++ zeros (128 - zlen p)) by (unfold slot; cbn [snd fst]; destruct g; apply copy_path_ok; exact H).
  pose proof (copy_path_ok p H) as CE. destruct H as (N & Z & L).
  assert (HU : holds 128 (u_path (slot (p, g))) p) by (rewrite E; apply holds_zeros; lia).
  rewrite (holds_strcmp _ _ _ _ _ _ HU HA). rewrite (cstr_id p Z). cbn [obind].
  destruct (list_eq_dec Z.eq_dec p (cstr path)) as [<-|D]; [|apply IH; exact F'].
  unfold slot. cbn [fst snd]. destruct g; reflexivity.
Qed.
Lemma find_in_free path arr k : holds 128 arr path -> http_find_url (repeat no_url k) arr =
  Some (match k with O => None | S _ => match cstr path with [] => Some no_url | _ => None end end).
Proof.
  intros HA. induction k as [|k IH]; [reflexivity|]. cbn [repeat http_find_url].
  assert (HU : holds 128 (u_path no_url) []) by (split; [reflexivity|exists (zeros 127); reflexivity]).
  rewrite (holds_strcmp _ _ _ _ _ _ HU HA). cbn [cstr obind]. destruct (cstr path) as [|c s] eqn:C; cbn; [reflexivity|].
  rewrite IH. destruct k; reflexivity.
Qed.

(** ** C64 *)
(** What the client is entitled to: the page registered first under the decoded
    path, 404 when there is none (503 for the empty path while the table has room). *)
Definition answer (ps : pages) (v : view) (o : outcome) : Prop :=
  match lookup (firstn 16 ps) (cstr (v_path v)) with
  | Some (Handler h) => exists r, o = OCall h r /\ sees r v
  | Some (Static c) => o = OStatic c
  | None => o = OStatus (if (match cstr (v_path v) with [] => true | _ => false end) && (Z.of_nat (length ps) <? 16) then 503 else 404)
  end.
Definition served_method (v : view) : Prop := v_method v = GET \/ v_method v = POST.

Lemma dispatch_spec ps r v : Forall (fun r => path_ok (fst r)) ps -> sees r v -> has_no 0 (v_method v) ->
  exists o, dispatch (table ps) r = Some o /\ ((served_method v /\ answer ps v o) \/ (~ served_method v /\ o = OStatus 400)).
Proof.
  intros F S NM. pose proof S as (HM & HP & _). unfold dispatch, served_method.
  assert (HG : holds 4 s_GET GET) by (split; [reflexivity|exists []; reflexivity]).
  assert (HPo : holds 5 s_POST POST) by (split; [reflexivity|exists []; reflexivity]).
  rewrite (holds_strcmp _ _ _ _ _ _ HM HG), (holds_strcmp _ _ _ _ _ _ HM HPo). cbn [obind]. rewrite (cstr_id _ NM).
  change (cstr GET) with GET. change (cstr POST) with POST.
  assert (K : forall o, (do u <- http_find_url (table ps) (r_path r);
     match u with
     | None => Some (OStatus 404)
     | Some u => match u_handler u, u_static u with None, None => Some (OStatus 503) | None, Some c => Some (OStatic c) | Some h, _ => Some (OCall h r) end
     end) = Some o -> answer ps v o).
  { intros o E. assert (FF : Forall (fun r => path_ok (fst r)) (firstn 16 ps)) by (apply Forall_forall; intros x X; rewrite Forall_forall in F; apply F; rewrite <- (firstn_skipn 16 ps); apply in_or_app; left; exact X).
    rewrite (table_slots ps F), (find_in_slots _ _ _ HP _ FF) in E. unfold answer. destruct (lookup (firstn 16 ps) (cstr (v_path v))) as [[h|c]|].
    - cbn in E. injection E as <-. exists r. split; [reflexivity|exact S].
    - cbn in E. injection E as <-. reflexivity.
    - rewrite (find_in_free _ _ _ HP) in E. cbn [obind] in E. destruct (Z.ltb_spec (Z.of_nat (length ps)) 16); destruct (16 - length ps)%nat eqn:KK; try lia;
        destruct (cstr (v_path v)); cbn in E |- *; injection E as <-; reflexivity. }
  assert (T : exists o, (do u <- http_find_url (table ps) (r_path r);
     match u with
     | None => Some (OStatus 404)
     | Some u => match u_handler u, u_static u with None, None => Some (OStatus 503) | None, Some c => Some (OStatic c) | Some h, _ => Some (OCall h r) end
     end) = Some o).
  { assert (FF : Forall (fun r => path_ok (fst r)) (firstn 16 ps)) by (apply Forall_forall; intros x X; rewrite Forall_forall in F; apply F; rewrite <- (firstn_skipn 16 ps); apply in_or_app; left; exact X).
    rewrite (table_slots ps F), (find_in_slots _ _ _ HP _ FF). destruct (lookup (firstn 16 ps) (cstr (v_path v))) as [[h|c]|]; [eexists; reflexivity|eexists; reflexivity|].
    rewrite (find_in_free _ _ _ HP). cbn [obind]. destruct (16 - length ps)%nat; [eexists; reflexivity|]. destruct (cstr (v_path v)); eexists; reflexivity. }
  destruct T as (o & T).
  destruct (list_eq_dec Z.eq_dec (v_method v) GET) as [G|G]; [exists o; split; [exact T|left; split; [left; exact G|apply K; exact T]]|].
  destruct (list_eq_dec Z.eq_dec (v_method v) POST) as [P|P]; [exists o; split; [exact T|left; split; [right; exact P|apply K; exact T]]|].
  eexists. split; [reflexivity|]. right. split; [intros [?|?]; contradiction|reflexivity].
Qed.

Lemma recv_buffer buf data us : zlen buf = 1460 -> zlen data <= 1459 ->
  exists post, http_recv us buf data = parse_http_request us (data ++ 0 :: post) (zlen data).
Proof.
  intros LB LD. unfold http_recv. pose proof (zlen_nonneg data).
  assert (E : exists x post, zlen x = zlen data /\ buf = x ++ post).
  { exists (firstn (length data) buf), (skipn (length data) buf). split; [unfold zlen in *; rewrite firstn_length; lia|symmetry; apply firstn_skipn]. }
  destruct E as (x & post & XL & ->). rewrite zlen_app in LB. destruct post as [|y post]; [rewrite zlen_nil in LB; lia|].
  pose proof (mwrite_mid [] x data (y :: post) (zlen_length _ _ (eq_sym XL))) as W. cbn [app] in W. change (zlen (@nil Z)) with 0 in W. rewrite W. cbn [obind].
  change (data ++ y :: post) with (data ++ [y] ++ post). rewrite (mwrite_mid data [y] [0] post eq_refl). cbn [obind app]. exists post. reflexivity.
Qed.

(** C64.  Whatever bytes arrive from a client, whatever was in the receive buffer,
    and whatever pages were registered before: no access leaves an array; a
    well-formed GET or POST request is answered with the page for its path, the
    handler getting exactly the request; any other bytes are answered with 400 and reach
    no handler - except a request whose declared and actual body is exactly 1024
    bytes, which is dropped without an answer. *)
Theorem http_request_exact : forall ps buf data,
  Forall (fun r => path_ok (fst r)) ps -> zlen buf = 1460 -> Forall byte data -> zlen data <= 1459 ->
  exists o, http_recv (table ps) buf data = Some o /\
  ((exists v, request_bytes data v /\ zlen (v_body v) <= 1023 /\ served_method v /\ answer ps v o) \/
   (o = OStatus 400 /\ forall v, request_bytes data v -> zlen (v_body v) <= 1023 /\ ~ served_method v) \/
   (o = OSilent /\ exists v, request_bytes data v /\ zlen (v_body v) = 1024)).
Proof.
  intros ps buf data F LB B LD. destruct (recv_buffer buf data (table ps) LB LD) as (post & ->). unfold parse_http_request.
  destruct (parse_sound data post B ltac:(lia)) as (p & E & H). rewrite E. cbn [obind].
  assert (C : forall v, request_bytes data v -> (zlen (v_body v) <= 1023 /\ exists r, p = PReq r /\ sees r v) \/ (zlen (v_body v) = 1024 /\ p = PSilent)).
  { intros v R. destruct (parse_complete data post v B ltac:(lia) R) as (p' & E' & K). rewrite E in E'. injection E' as <-. exact K. }
  destruct p as [| |r].
  - eexists. split; [reflexivity|]. right. left. split; [reflexivity|]. intros v R. destruct (C v R) as [(_ & r & X & _)|(_ & X)]; discriminate.
  - eexists. split; [reflexivity|]. right. right. split; [reflexivity|exact H].
  - destruct H as (v & R & L & S).
    assert (NM : has_no 0 (v_method v)) by (destruct R as (t & ra & ve & eo & li & fi & R); destruct R as (_ & _ & _ & _ & _ & N & _); exact N).
    destruct (dispatch_spec ps r v F S NM) as (o & D & K). exists o. split; [exact D|]. destruct K as [(M & A)|(M & ->)].
    + left. exists v. split; [exact R|]. split; [exact L|]. split; [exact M|exact A].
    + right. left. split; [reflexivity|]. intros v' R'. destruct (C v' R') as [(L' & r' & X & S')|(_ & X)]; [|discriminate]. injection X as <-.
      split; [exact L'|]. intros M'. apply M.
      assert (NM' : has_no 0 (v_method v')) by (destruct R' as (t & ra & ve & eo & li & fi & R'); destruct R' as (_ & _ & _ & _ & _ & N & _); exact N).
      destruct S as ((_ & j & Ej) & _). destruct S' as ((_ & j' & Ej') & _). rewrite Ej in Ej'.
      destruct (split_unique 0 _ _ _ _ NM NM' Ej') as [EM _]. unfold served_method. rewrite EM. exact M'.
Qed.

(** ** One reading only *)
Lemma crlf_unique a b a' b' : no_crlf a -> has_no 0 a -> no_crlf a' -> has_no 0 a' -> a ++ 13 :: 10 :: b = a' ++ 13 :: 10 :: b' -> a = a' /\ b = b'.
Proof.
  intros N Z N' Z' E. pose proof (scan_crlf_hit a b 0 N Z) as H. rewrite E, (scan_crlf_hit a' b' 0 N' Z') in H. injection H as H.
  assert (L : length a = length a') by (apply zlen_length; lia). destruct (app_eq_app _ _ _ _ E) as (l & [(A & B)|(A & B)]).
  - assert (l = []) as -> by (apply (f_equal (@length _)) in A; rewrite app_length in A; destruct l; [reflexivity|cbn in A; lia]).
    rewrite app_nil_r in A. cbn in B. injection B as B. split; [exact A|]. symmetry. exact B.
  - assert (l = []) as -> by (apply (f_equal (@length _)) in A; rewrite app_length in A; destruct l; [reflexivity|cbn in A; lia]).
    rewrite app_nil_r in A. cbn in B. injection B as B. split; [symmetry; exact A|exact B].
Qed.
Lemma wire_unique : forall lines lines' fin fin' body body', Forall line_ok lines -> Forall line_ok lines' ->
  (fin = CR :: LF :: body \/ fin = [] /\ body = []) -> (fin' = CR :: LF :: body' \/ fin' = [] /\ body' = []) ->
  wire lines ++ fin = wire lines' ++ fin' -> lines = lines' /\ body = body'.
Proof.
  assert (Q : forall l lines fin fin' body, line_ok l -> (fin' = CR :: LF :: body \/ fin' = [] /\ body = []) -> wire (l :: lines) ++ fin = fin' -> False).
  { intros l lines fin fin' body (N & C & Z) FN E. rewrite wire_cons, <- app_assoc in E. cbn [app] in E. destruct FN as [->|[-> ->]].
    - destruct (crlf_unique l (wire lines ++ fin) [] body C Z ltac:(intros [|? ?] ? X; discriminate) ltac:(intros []) E) as [-> _]. congruence.
    - destruct l; discriminate. }
  induction lines as [|l lines IH]; intros lines' fin fin' body body' F F' FN FN' E.
  - destruct lines' as [|l' lines']; [|exfalso; inversion F'; subst; eapply (Q l' lines' fin' fin body); [assumption|exact FN|symmetry; exact E]].
    cbn [wire flat_map app] in E. subst fin'. split; [reflexivity|]. destruct FN as [->|[-> ->]]; destruct FN' as [X|[X Y]]; congruence.
  - destruct lines' as [|l' lines']; [exfalso; inversion F; subst; eapply (Q l lines fin fin' body'); [assumption|exact FN'|exact E]|].
    inversion F as [|? ? (A1 & A2 & A3) F1]; subst. inversion F' as [|? ? (B1 & B2 & B3) F1']; subst.
    rewrite !wire_cons, <- !app_assoc in E. cbn [app] in E. destruct (crlf_unique _ _ _ _ A2 A3 B2 B3 E) as [-> E'].
    destruct (IH lines' fin fin' body body' F1 F1' FN FN' E') as [-> ->]. split; reflexivity.
Qed.

(** C64.  A byte string has at most one reading as a request: where the headers and
    the body begin and end, and every field, are determined. *)
Theorem http_request_unambiguous : forall data v v', request_bytes data v -> request_bytes data v' -> v = v'.
Proof.
  intros data v v' (target & raw & ver & eol & lines & fin & ED & FN & NM & NT & NV & ZM & ZT & ZV & ML & T1 & T2 & T3 & T4 & T5 & T6 & T7 & T8 & OK & HJ & JL & FR & BL)
    (target' & raw' & ver' & eol' & lines' & fin' & ED' & FN' & NM' & NT' & NV' & ZM' & ZT' & ZV' & ML' & T1' & T2' & T3' & T4' & T5' & T6' & T7' & T8' & OK' & HJ' & JL' & FR' & BL').
  rewrite ED in ED'. destruct (split_unique _ _ _ _ _ NM NM' ED') as [E1 E2]. destruct (split_unique _ _ _ _ _ NT NT' E2) as [E3 E4].
  destruct (split_unique _ _ _ _ _ NV NV' E4) as [E5 E6]. injection E6 as E6 E7. subst target'.
  destruct (wire_unique lines lines' fin fin' _ _ OK OK' FN FN' E7) as [E8 E9]. destruct (target_of_unique _ _ _ _ _ T1 T1') as [E10 E11].
  destruct v as [m1 p1 q1 h1 b1], v' as [m2 p2 q2 h2 b2]. cbn [v_method v_path v_query v_headers v_body] in *. subst. rewrite T3 in T3'. injection T3' as ->. reflexivity.
Qed.

(** ** C65: request arguments *)
Lemma pieces_nonempty s : exists p ps, pieces s = p :: ps.
Proof. induction s as [|c s (p & ps & E)]; cbn [pieces]; [eauto|]. destruct (c =? 38); [eauto|]. rewrite E. eauto. Qed.
Lemma pieces_one a : has_no 38 a -> pieces a = [a].
Proof. induction a as [|c a IH]; intros H; [reflexivity|]. unfold has_no in *. cbn in H |- *. destruct (Z.eqb_spec c 38); [tauto|]. rewrite IH by tauto. reflexivity. Qed.
Lemma pieces_cons a b : has_no 38 a -> pieces (a ++ 38 :: b) = a :: pieces b.
Proof. induction a as [|c a IH]; intros H; cbn [app pieces]; [rewrite Z.eqb_refl; reflexivity|]. unfold has_no in *. cbn in H. destruct (Z.eqb_spec c 38); [tauto|]. rewrite IH by tauto. reflexivity. Qed.
Lemma bytes_eq_spec a : forall b, bytes_eq a b = true <-> a = b.
Proof.
  induction a as [|x a IH]; intros [|y b]; cbn [bytes_eq]; try (split; discriminate); [tauto|].
  rewrite andb_true_iff, Z.eqb_eq, IH. split; [intros [-> ->]; reflexivity|intros E; injection E as -> ->; tauto].
Qed.
Lemma strlen_at_spec s post : has_no 0 s -> strlen_at (s ++ 0 :: post) = Some (zlen s).
Proof.
  induction s as [|c s IH]; intros H; [reflexivity|]. unfold has_no in *. cbn in H. cbn [app strlen_at]. destruct (Z.eqb_spec c 0); [tauto|].
  rewrite IH by tauto. cbn [obind]. rewrite zlen_cons. f_equal. lia.
Qed.
(** splitting off a prefix *)
Lemma prefix_split (c : Z) : forall k t a r, k ++ c :: t = a ++ r -> zlen k < zlen a -> exists u, a = k ++ c :: u.
Proof.
  induction k as [|x k IH]; intros t a r E L.
  - destruct a as [|y a]; [rewrite !zlen_nil in L; lia|]. injection E as <- _. exists a. reflexivity.
  - destruct a as [|y a]; [rewrite zlen_nil in L; pose proof (zlen_nonneg (x :: k)); lia|]. rewrite !zlen_cons in L. injection E as <- E.
    destruct (IH t a r E ltac:(lia)) as (u & ->). exists u. reflexivity.
Qed.
(** the piece [a] (followed by & or the end) is looked at correctly *)
Definition hit_of (a name : list Z) : option Z :=
  match find_byte a 61 0 with Some k => if (k =? zlen name) && bytes_eq (firstn (Z.to_nat k) a) name then Some k else None | None => None end.
Lemma hit_of_spec a name k : hit_of a name = Some k -> k = zlen name /\ has_no 61 name /\ exists v, a = name ++ 61 :: v.
Proof.
  unfold hit_of. pose proof (find_byte_spec 61 a 0) as H. destruct (find_byte a 61 0) as [q|]; [|discriminate]. destruct H as (x & y & -> & N & ->).
  destruct ((0 + zlen x =? zlen name) && bytes_eq (firstn (Z.to_nat (0 + zlen x)) (x ++ 61 :: y)) name) eqn:C; [|discriminate]. intros E. injection E as <-.
  apply andb_true_iff in C. destruct C as [C1 C2]. apply bytes_eq_spec in C2. unfold zlen in C2. rewrite Z.add_0_l, Nat2Z.id, firstn_app, firstn_all, Nat.sub_diag in C2.
  cbn [firstn] in C2. rewrite app_nil_r in C2. subst name. split; [lia|]. split; [exact N|]. exists y. reflexivity.
Qed.
Lemma hit_of_complete name v : has_no 61 name -> hit_of (name ++ 61 :: v) name = Some (zlen name).
Proof.
  intros N. unfold hit_of. pose proof (find_byte_spec 61 (name ++ 61 :: v) 0) as H. destruct (find_byte (name ++ 61 :: v) 61 0) as [q|].
  - destruct H as (x & y & E & NX & ->). destruct (split_unique 61 _ _ _ _ N NX E) as [<- <-]. rewrite Z.add_0_l, Z.eqb_refl. cbn [andb].
    unfold zlen at 1. rewrite Nat2Z.id, firstn_app, firstn_all, Nat.sub_diag. cbn [firstn]. rewrite app_nil_r. rewrite (proj2 (bytes_eq_spec name name) eq_refl). reflexivity.
  - exfalso. apply H. apply in_or_app. right. left. reflexivity.
Qed.

(** [value] after the call: the argument, its NUL, the rest unchanged *)
Definition stored (value v value' : list Z) : Prop :=
  zlen value' = zlen value /\ exists rest, value' = v ++ 0 :: rest /\ rest = skipn (Z.to_nat (zlen v + 1)) value.
Lemma store_value (value v : list Z) : zlen v < zlen value -> exists value', (do x <- mwrite value 0 v; do x <- mwrite x (zlen v) [0]; Some (x, 0)) = Some (value', 0) /\ stored value v value'.
Proof.
  intros L. pose proof (zlen_nonneg v).
  assert (E : exists x y rest, zlen x = zlen v /\ value = x ++ y :: rest).
  { exists (firstn (length v) value). destruct (skipn (length v) value) as [|y rest] eqn:K.
    - apply (f_equal (@length Z)) in K. rewrite skipn_length in K. unfold zlen in *. cbn in K. lia.
    - exists y, rest. split; [unfold zlen in *; rewrite firstn_length; lia|]. rewrite <- K. symmetry. apply firstn_skipn. }
  destruct E as (x & y & rest & XL & ->). pose proof (mwrite_mid [] x v (y :: rest) (zlen_length _ _ (eq_sym XL))) as W. cbn [app] in W. change (zlen (@nil Z)) with 0 in W. rewrite W. cbn [obind].
  change (v ++ y :: rest) with (v ++ [y] ++ rest). rewrite (mwrite_mid v [y] [0] rest eq_refl). cbn [obind]. eexists. split; [reflexivity|].
  split; [rewrite !zlen_app, !zlen_cons, zlen_nil; lia|]. exists rest. split; [reflexivity|]. rewrite <- XL.
  replace (Z.to_nat (zlen x + 1)) with (length x + 1)%nat by (unfold zlen; lia).
  rewrite skipn_app, skipn_all2 by lia. replace (length x + 1 - length x)%nat with 1%nat by lia. reflexivity.
Qed.

Definition arg_result (s name value : list Z) (res : list Z * Z) : Prop :=
  (exists v, first_arg s name v /\ zlen v < zlen value /\ snd res = 0 /\ stored value v (fst res)) \/
  (exists v, first_arg s name v /\ zlen value <= zlen v /\ res = (value, -1)) \/
  ((forall v, ~ first_arg s name v) /\ res = (value, -1)).

Lemma arg_loop_spec name value : forall fuel s pre post p, p = zlen pre -> has_no 0 s -> (length s < fuel)%nat ->
  exists res, arg_loop fuel (pre ++ s ++ 0 :: post) p name value = Some res /\ arg_result s name value res.
Proof.
  induction fuel as [|fuel IH]; intros s pre post p P NZ L; [lia|]. cbn [arg_loop].
  assert (EMP : forall s', pieces s' = [[]] -> arg_result s' name value (value, -1)).
  { intros s' E. right. right. split; [|reflexivity]. intros v (bf & af & X & _). rewrite E in X. destruct bf as [|? [|? ?]]; [|discriminate|discriminate]. destruct name; discriminate. }
  destruct s as [|c s0].
  { cbn [app]. rewrite rd1_mid by exact P. cbn [obind]. rewrite Z.eqb_refl. eexists. split; [reflexivity|]. apply EMP. reflexivity. }
  remember (c :: s0) as s eqn:HS. assert (C0 : c <> 0) by (intros ->; apply NZ; rewrite HS; left; reflexivity).
  assert (RC : rd1 (pre ++ s ++ 0 :: post) p = Some c) by (rewrite HS; cbn [app]; apply rd1_mid; exact P). rewrite RC. cbn [obind].
  destruct (Z.eqb_spec c 0); [contradiction|]. clear RC.
  (* the piece [a] and what follows it *)
  assert (SP : exists a r, s = a ++ r /\ has_no 38 a /\ (r = [] \/ exists b, r = 38 :: b) /\
     (do q0 <- strchr (pre ++ s ++ 0 :: post) p 38; match q0 with Some q => Some q | None => do n <- strlen_at (skipn (Z.to_nat p) (pre ++ s ++ 0 :: post)); Some (p + n) end) = Some (p + zlen a)).
  { subst p. destruct (strchr_cases pre s post 38 ltac:(lia)) as [(a & b & E & N & _ & S)|(S & N)]; rewrite S; cbn [obind].
    - exists a, (38 :: b). split; [exact E|]. split; [exact N|]. split; [right; eexists; reflexivity|reflexivity].
    - exists s, []. rewrite app_nil_r. split; [reflexivity|]. split.
      + intros I. pose proof (find_byte_spec 38 s 0) as FB. destruct (find_byte s 38 0); [|contradiction]. destruct FB as (a & b & E & NA & _). apply NA. apply (N a b E).
        intros Z0. apply NZ. rewrite E. apply in_or_app. left. exact Z0.
      + split; [left; reflexivity|]. rewrite skipn_pre, strlen_at_spec by exact NZ. reflexivity. }
  destruct SP as (a & r & E & N38 & R & Q). 
  destruct (strchr (pre ++ s ++ 0 :: post) p 38) as [q0|]; [|discriminate Q]. cbn [obind] in Q |- *. rewrite Q. cbn [obind]. clear Q q0.
  assert (HIT : (do sep <- strchr (pre ++ s ++ 0 :: post) p 61;
      match sep with
      | Some s1 => if s1 <? p + zlen a then do key <- mread (pre ++ s ++ 0 :: post) p (s1 - p);
                     Some (if (s1 - p =? zlen name) && bytes_eq key name then Some s1 else None)
                   else Some None
      | None => Some None end) = Some (match hit_of a name with Some k => Some (p + k) | None => None end)).
  { subst p. unfold hit_of. destruct (strchr_cases pre s post 61 ltac:(lia)) as [(k & t & EK & NK & _ & S)|(S & N)]; rewrite S; cbn [obind].
    - pose proof (find_byte_spec 61 a 0) as FB. destruct (Z.ltb_spec (zlen pre + zlen k) (zlen pre + zlen a)) as [LT|LT].
      + destruct (prefix_split 61 k t a r ltac:(congruence) ltac:(lia)) as (u & EA).
        replace (pre ++ s ++ 0 :: post) with (pre ++ k ++ (61 :: t ++ 0 :: post)) by (rewrite EK, <- app_assoc; reflexivity).
        replace (zlen pre + zlen k - zlen pre) with (zlen k) by lia. rewrite mread_mid. cbn [obind].
        destruct (find_byte a 61 0) as [q|]; [|exfalso; apply FB; rewrite EA; apply in_or_app; right; left; reflexivity].
        destruct FB as (x & y & EX & NX & ->). rewrite EA in EX. destruct (split_unique 61 _ _ _ _ NK NX EX) as [<- <-]. rewrite Z.add_0_l.
        assert (FK : firstn (Z.to_nat (zlen k)) a = k) by (rewrite EA; unfold zlen; rewrite Nat2Z.id, firstn_app, firstn_all, Nat.sub_diag; cbn [firstn]; apply app_nil_r).
        rewrite FK. destruct ((zlen k =? zlen name) && bytes_eq k name); reflexivity.
      + destruct (find_byte a 61 0) as [q|]; [|reflexivity]. destruct FB as (x & y & EX & NX & ->). exfalso.
        rewrite E, EX, <- app_assoc in EK. cbn [app] in EK. destruct (split_unique 61 _ _ _ _ NX NK EK) as [-> _]. rewrite EX, zlen_app, zlen_cons in LT. pose proof (zlen_nonneg y). lia.
    - pose proof (find_byte_spec 61 a 0) as FB. destruct (find_byte a 61 0) as [q|]; [|reflexivity]. destruct FB as (x & y & EX & NX & ->). exfalso. apply NX.
      apply (N x (y ++ r)); [rewrite E, EX, <- app_assoc; reflexivity|]. intros Z0. apply NZ. rewrite E, EX. apply in_or_app. left. apply in_or_app. left. exact Z0. }
  destruct (strchr (pre ++ s ++ 0 :: post) p 61) as [sep|]; [|discriminate HIT]. cbn [obind] in HIT |- *. rewrite HIT. cbn [obind]. clear HIT sep.
  assert (PS : pieces s = a :: match r with [] => [] | _ :: b => pieces b end).
  { rewrite E. destruct R as [->|(b & ->)]; [rewrite app_nil_r; apply pieces_one; exact N38|apply pieces_cons; exact N38]. }
  destruct (hit_of a name) as [k|] eqn:HO.
  - destruct (hit_of_spec _ _ _ HO) as (-> & N61 & v & EA).
    assert (FA : first_arg s name v) by (exists [], (match r with [] => [] | _ :: b => pieces b end); split; [rewrite PS, EA; reflexivity|split; [exact N61|intros ? ? []]]).
    assert (ZA : zlen a = zlen name + 1 + zlen v) by (rewrite EA, zlen_app, zlen_cons; lia).
    replace (p + zlen a - (p + zlen name + 1)) with (zlen v) by lia.
    destruct (Z.leb_spec (zlen value) (zlen v)) as [TL|TL].
    + eexists. split; [reflexivity|]. right. left. exists v. split; [exact FA|]. split; [exact TL|reflexivity].
    + replace (pre ++ s ++ 0 :: post) with ((pre ++ name ++ [61]) ++ v ++ (r ++ 0 :: post)) by (rewrite E, EA, <- !app_assoc; reflexivity).
      replace (p + zlen name + 1) with (zlen (pre ++ name ++ [61])) by (rewrite !zlen_app, zlen_lit1; lia). rewrite mread_mid. cbn [obind].
      destruct (store_value value v TL) as (value' & W & ST). rewrite W. eexists. split; [reflexivity|]. left. exists v. split; [exact FA|]. split; [exact TL|]. split; [reflexivity|exact ST].
  - assert (NA : forall w, a <> name ++ 61 :: w \/ ~ has_no 61 name).
    { intros w. destruct (in_dec Z.eq_dec 61 name) as [I|I]; [right; intros X; exact (X I)|]. left. intros ->. rewrite (hit_of_complete name w I) in HO. discriminate. }
    destruct R as [->|(b & ->)].
    + rewrite app_nil_r in E. subst s. rewrite E in *.
      replace (pre ++ a ++ 0 :: post) with ((pre ++ a) ++ 0 :: post) by (rewrite <- app_assoc; reflexivity).
      rewrite rd1_mid by (rewrite zlen_app; lia). cbn [obind]. rewrite Z.eqb_refl. eexists. split; [reflexivity|]. right. right. split; [|reflexivity].
      intros v (bf & af & X & N61 & _). rewrite PS in X. destruct bf as [|? [|? ?]]; [|discriminate|discriminate]. injection X as X _. destruct (NA v); [contradiction|tauto].
    + replace (pre ++ s ++ 0 :: post) with ((pre ++ a) ++ 38 :: b ++ 0 :: post) by (rewrite E, <- !app_assoc; reflexivity).
      rewrite rd1_mid by (rewrite zlen_app; lia). cbn [obind]. change (38 =? 0) with false. cbn iota.
      replace ((pre ++ a) ++ 38 :: b ++ 0 :: post) with ((pre ++ a ++ [38]) ++ b ++ 0 :: post) by (rewrite <- !app_assoc; reflexivity).
      destruct (IH b (pre ++ a ++ [38]) post (p + zlen a + 1)) as (res & ER & K).
      { rewrite !zlen_app, zlen_lit1. lia. } { intros Z0. apply NZ. rewrite E. apply in_or_app. right. right. exact Z0. }
      { apply (f_equal (@length Z)) in E. rewrite app_length in E. cbn [length] in E. lia. }
      exists res. split; [exact ER|].
      assert (FI : forall v, first_arg b name v <-> first_arg s name v).
      { intros v. unfold first_arg. rewrite PS. split.
        - intros (bf & af & X & N61 & NB). exists (a :: bf), af. split; [rewrite X; reflexivity|]. split; [exact N61|]. intros q w [<-|I]; [destruct (NA w); [assumption|tauto]|exact (NB q w I)].
        - intros (bf & af & X & N61 & NB). destruct bf as [|q bf]; [injection X as X _; destruct (NA v); [contradiction|tauto]|]. injection X as <- X. exists bf, af. split; [exact X|]. split; [exact N61|].
          intros q w I. apply (NB q w). right. exact I. }
      destruct K as [(v & FA & K)|[(v & FA & K)|(NF & K)]]; [left; exists v; split; [apply FI; exact FA|exact K]|right; left; exists v; split; [apply FI; exact FA|exact K]|].
      right. right. split; [intros v FA; apply (NF v); apply FI; exact FA|exact K].
Qed.
Lemma cstr_nonul s : has_no 0 (cstr s).
Proof. induction s as [|c s IH]; cbn [cstr]; [intros []|]. destruct (Z.eqb_spec c 0); [intros []|]. intros [X|X]; [congruence|exact (IH X)]. Qed.
Lemma holds_cstr n a s : holds n a s -> exists post, a = [] ++ cstr s ++ 0 :: post.
Proof.
  intros (_ & j & ->). cbn [app]. induction s as [|c s (post & IH)]; [exists j; reflexivity|]. cbn [cstr app]. destruct (Z.eqb_spec c 0) as [->|]; [exists (s ++ 0 :: j); reflexivity|].
  exists post. rewrite IH. reflexivity.
Qed.

(** C65.  In a handler's request, the value of the first argument of that name - in
    the query of a GET, in the body of a POST - is stored, NUL-terminated, in the
    caller's buffer; when it does not fit, or there is none, the result is -1 and the
    buffer is untouched.  Nothing outside the arrays is read or written. *)
Theorem request_arg_exact : forall r v name value, sees r v -> served_method v -> 
  exists res, httpd_get_request_arg r name value = Some res /\
    arg_result (cstr (if list_eq_dec Z.eq_dec (v_method v) GET then v_query v else v_body v)) name value res.
Proof.
  intros r v name value (HM & HP & HQ & HH & HB & BL) SM. unfold httpd_get_request_arg.
  assert (HG : holds 4 s_GET GET) by (split; [reflexivity|exists []; reflexivity]).
  assert (HPo : holds 5 s_POST POST) by (split; [reflexivity|exists []; reflexivity]).
  rewrite (holds_strcmp _ _ _ _ _ _ HM HG). cbn [obind].
  assert (K : forall n a s, holds n a s -> exists res, arg_loop (length a) a 0 name value = Some res /\ arg_result (cstr s) name value res).
  { intros n a s H. destruct (holds_cstr n a s H) as (post & E). assert (L : (length (cstr s) < length a)%nat) by (rewrite E; cbn [app]; rewrite app_length; cbn [length]; lia).
    pose proof (arg_loop_spec name value (length a) (cstr s) [] post 0 eq_refl (cstr_nonul s) L) as X. rewrite <- E in X. exact X. }
  destruct SM as [G|G]; rewrite G.
  - change (cstr GET) with GET. destruct (list_eq_dec Z.eq_dec GET GET); [|congruence]. exact (K _ _ _ HQ).
  - change (cstr POST) with POST. destruct (list_eq_dec Z.eq_dec POST (cstr GET)); [discriminate|]. cbn iota.
    rewrite (holds_strcmp _ _ _ _ _ _ HM HPo), G. change (cstr POST) with POST. cbn [obind]. destruct (list_eq_dec Z.eq_dec POST POST); [|congruence].
    destruct (list_eq_dec Z.eq_dec POST GET); [discriminate|]. exact (K _ _ _ HB).
Qed.

(** ** Examples: the theorems apply, and what does not hold *)
From Coq Require Import String Ascii.
Definition txt (s : string) : list Z := map (fun c => Z.of_nat (nat_of_ascii c)) (list_ascii_of_string s).
Definition crlf : list Z := [13; 10].
Definition exPages : pages := [(txt "/a", Static (txt "hello")); (txt "/led", Handler 7)].
Definition exBuf : list Z := repeat 170 1460%nat.
Definition exPost : list Z := (txt "POST /l%65d?x=1 HTTP/1.1" ++ crlf ++ txt "Host: a" ++ crlf ++ txt "content-LENGTH:  12" ++ crlf ++ crlf ++ txt "a=1&led=on&b")%list.
Lemma exPages_ok : Forall (fun r => path_ok (fst r)) exPages.
Proof. repeat (apply Forall_cons; [split; [discriminate|split; [cbn; intros H; repeat (destruct H as [H|H]; [discriminate|]); exact H|vm_compute; discriminate]]|]). apply Forall_nil. Qed.
Lemma txt_bytes l : forallb (fun c => (0 <=? c) && (c <? 256)) l = true -> Forall byte l.
Proof. intros H. apply Forall_forall. intros x X. rewrite forallb_forall in H. specialize (H x X). unfold byte. lia. Qed.

(** a POST with an encoded path, mixed-case header and body reaches the handler, which
    reads its argument *)
Definition hits (o : option outcome) (h : Z) (name : list Z) (arg : list Z) : bool :=
  match o with
  | Some (OCall k r) => (k =? h) && (match httpd_get_request_arg r name (repeat 9 10%nat) with Some (v, 0) => bytes_eq (cstr v) arg | _ => false end)
  | _ => false end.
Example http_nonvacuous : hits (http_recv (table exPages) exBuf exPost) 7 (txt "led") (txt "on") = true /\
  exists v, request_bytes exPost v /\ served_method v /\ v_path v = txt "/led" /\ v_body v = txt "a=1&led=on&b" /\ first_arg (v_body v) (txt "led") (txt "on").
Proof.
  split; [vm_compute; reflexivity|].
  assert (RB : request_bytes exPost (View POST (txt "/led") (txt "x=1") (txt "Host: a" ++ crlf ++ txt "content-LENGTH:  12")%list (txt "a=1&led=on&b"))).
  {
    exists (txt "/l%65d?x=1"), (txt "/l%65d"), (txt "HTTP/1.1"), 10, [txt "Host: a"; txt "content-LENGTH:  12"], (crlf ++ txt "a=1&led=on&b")%list.
    cbn [v_method v_path v_query v_headers v_body].
    assert (HN : forall c s, forallb (fun x => negb (x =? c)) s = true -> has_no c s).
    { intros c s F I. rewrite forallb_forall in F. specialize (F c I). rewrite Z.eqb_refl in F. discriminate. }
    assert (NC : forall s, forallb (fun x => negb (x =? 13)) s = true -> no_crlf s).
    { intros s F a b ->. apply (HN 13 _ F). apply in_or_app. right. left. reflexivity. }
    split; [vm_compute; reflexivity|]. split; [left; vm_compute; reflexivity|].
    repeat (split; [first [apply HN; vm_compute; reflexivity | vm_compute; discriminate]|]).
    split; [split; [apply HN; vm_compute; reflexivity|right; vm_compute; reflexivity]|].
    repeat (split; [first [apply HN; vm_compute; reflexivity | vm_compute; discriminate | vm_compute; reflexivity]|]).
    split; [repeat (apply Forall_cons; [split; [discriminate|split; [apply NC; vm_compute; reflexivity|apply HN; vm_compute; reflexivity]]|]); apply Forall_nil|].
    split; [vm_compute; reflexivity|]. split; [vm_compute; discriminate|]. split; [|vm_compute; discriminate].
    apply framed_iff; [vm_compute; discriminate|]. exists 12, false. split; [vm_compute; reflexivity|]. split; [reflexivity|]. left. split; [lia|vm_compute; reflexivity]. }
  eexists. split; [exact RB|]. split; [right; reflexivity|]. split; [reflexivity|]. split; [reflexivity|].
  exists [txt "a=1"], [txt "b"]. split; [vm_compute; reflexivity|]. split; [cbn; intros H; repeat (destruct H as [H|H]; [discriminate|]); exact H|].
  intros p w [<-|[]]. cbn. discriminate.
Qed.

(** Not so: "the page served is the one registered under the decoded path" - an encoded
    NUL cuts the path, so /a%00.secret gets the page of /a. *)
Definition exNul : list Z := (txt "GET /a%00.secret HTTP/1.1" ++ crlf ++ crlf)%list.
Theorem path_with_nul_refuted : ~ (forall ps buf data v c, Forall (fun r => path_ok (fst r)) ps -> zlen buf = 1460 -> Forall byte data -> zlen data <= 1459 ->
  request_bytes data v -> http_recv (table ps) buf data = Some (OStatic c) -> lookup ps (v_path v) = Some (Static c)).
Proof.
  intros H. destruct (http_request_exact exPages exBuf exNul exPages_ok eq_refl ltac:(apply txt_bytes; vm_compute; reflexivity) ltac:(vm_compute; discriminate)) as (o & E & K).
  assert (E' : http_recv (table exPages) exBuf exNul = Some (OStatic (txt "hello"))) by (vm_compute; reflexivity). rewrite E' in E. injection E as <-.
  destruct K as [(v & R & _)|[(X & _)|(X & _)]]; [|discriminate|discriminate].
  specialize (H exPages exBuf exNul v (txt "hello") exPages_ok eq_refl ltac:(apply txt_bytes; vm_compute; reflexivity) ltac:(vm_compute; discriminate) R E').
  assert (P : v_path v = txt "/a" \/ v_path v = txt "/led").
  { cbn [lookup exPages] in H. destruct (list_eq_dec Z.eq_dec (txt "/a") (v_path v)) as [X|X]; [left; symmetry; exact X|].
    destruct (list_eq_dec Z.eq_dec (txt "/led") (v_path v)) as [Y|Y]; [right; symmetry; exact Y|discriminate]. }
  destruct R as (target & raw & ver & eol & lines & fin & ED & _ & NM & NT & NV & _ & _ & _ & _ & T1 & _ & T3 & _).
  assert (EX : exNul = (txt "GET" ++ 32 :: txt "/a%00.secret" ++ 32 :: (txt "HTTP/1.1" ++ crlf ++ crlf))%list) by (vm_compute; reflexivity).
  rewrite EX in ED.
  assert (N1 : ~ In 32 (txt "GET")) by (cbn; intros I; repeat (destruct I as [I|I]; [discriminate|]); exact I).
  assert (N2 : ~ In 32 (txt "/a%00.secret")) by (cbn; intros I; repeat (destruct I as [I|I]; [discriminate|]); exact I).
  destruct (split_unique 32 _ _ _ _ N1 NM ED) as [_ ED2]. destruct (split_unique 32 _ _ _ _ N2 NT ED2) as [<- _].
  assert (T1' : target_of (txt "/a%00.secret") (txt "/a%00.secret") []).
  { split; [cbn; intros I; repeat (destruct I as [I|I]; [discriminate|]); exact I|left; split; reflexivity]. }
  destruct (target_of_unique _ _ _ _ _ T1 T1') as [-> _]. clear H. remember (v_path v) as vp eqn:HV. clear HV. vm_compute in T3. injection T3 as T3. destruct P as [P|P]; rewrite <- T3 in P; vm_compute in P; discriminate.
Qed.

(** Not so: "only a request whose line ends in CR LF and whose headers end in an empty
    line is served" - any byte may follow the CR, and the empty line may be missing. *)
Definition exLoose : list Z := (txt "GET /a x" ++ [13; 88])%list.
Theorem line_end_required_refuted : ~ (forall ps buf data c, Forall (fun r => path_ok (fst r)) ps -> zlen buf = 1460 -> Forall byte data -> zlen data <= 1459 ->
  http_recv (table ps) buf data = Some (OStatic c) -> exists a, data = (a ++ [13; 10; 13; 10])%list).
Proof.
  intros H. assert (E' : http_recv (table exPages) exBuf exLoose = Some (OStatic (txt "hello"))) by (vm_compute; reflexivity).
  specialize (H exPages exBuf exLoose (txt "hello") exPages_ok eq_refl ltac:(apply txt_bytes; vm_compute; reflexivity) ltac:(vm_compute; discriminate) E').
  destruct H as (a & Q). apply (f_equal (fun l => nth 0 (rev l) 0)) in Q. rewrite rev_app_distr in Q. vm_compute in Q. discriminate.
Qed.

(** Not so: "every request is answered" - one with a body of 1024 bytes is dropped. *)
Definition exBig : list Z := (txt "POST /led x" ++ crlf ++ txt "Content-Length: 1024" ++ crlf ++ crlf ++ repeat 65 1024%nat)%list.
Theorem every_request_answered_refuted : ~ (forall ps buf data, Forall (fun r => path_ok (fst r)) ps -> zlen buf = 1460 -> Forall byte data -> zlen data <= 1459 ->
  http_recv (table ps) buf data <> Some OSilent).
Proof.
  intros H. apply (H exPages exBuf exBig exPages_ok eq_refl ltac:(apply txt_bytes; vm_compute; reflexivity) ltac:(vm_compute; discriminate)). vm_compute. reflexivity.
Qed.

(** Other outcomes, for the record: unknown page, unknown method, duplicate length,
    missing length, chunked body, body longer than declared. *)
Example http_other_outcomes :
  let run d := http_recv (table exPages) exBuf d in
  run (txt "GET /b x" ++ crlf ++ crlf)%list = Some (OStatus 404) /\
  run (txt "GET  x" ++ crlf ++ crlf)%list = Some (OStatus 503) /\
  run (txt "PUT /a x" ++ crlf ++ crlf)%list = Some (OStatus 400) /\
  run (txt "GET /a x" ++ crlf ++ txt "Content-Length: 1" ++ crlf ++ txt "Content-Length: 1" ++ crlf ++ crlf ++ txt "a")%list = Some (OStatus 400) /\
  run (txt "GET /a x" ++ crlf ++ crlf ++ txt "a")%list = Some (OStatus 400) /\
  run (txt "GET /a x" ++ crlf ++ txt "Transfer-Encoding: chunked" ++ crlf ++ crlf)%list = Some (OStatus 400) /\
  run (txt "GET /a x" ++ crlf ++ txt "Content-Length: 1" ++ crlf ++ crlf ++ txt "ab")%list = Some (OStatus 400).
Proof. vm_compute. repeat split; reflexivity. Qed.

Print Assumptions register_result.
Print Assumptions http_request_exact.
Print Assumptions http_request_unambiguous.
Print Assumptions request_arg_exact.
Print Assumptions path_with_nul_refuted.
Print Assumptions line_end_required_refuted.
Print Assumptions every_request_answered_refuted.
