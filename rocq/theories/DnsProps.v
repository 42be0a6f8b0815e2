(** C24: DNS lookups. *)
From Verif Require Import Base Bits ListUtil Arp DnsSpec Dns DnsNameProps.

(** * Specification *)
(** decimal text of an octet *)
Definition dec8 (v : Z) : list Z :=
  if v <? 10 then [48 + v] else if v <? 100 then [48 + v / 10; 48 + v mod 10] else [48 + v / 100; 48 + v / 10 mod 10; 48 + v mod 10].
(** labels of d.c.b.a.in-addr.arpa for the address a.b.c.d *)
Definition rev_labels (ip : Z) : list (list Z) :=
  [dec8 (ip mod 256); dec8 (ip / 256 mod 256); dec8 (ip / 65536 mod 256); dec8 (ip / 16777216 mod 256);
   [105;110;45;97;100;100;114]; [97;114;112;97]].
(** An outstanding question: id, name, type (1 = A, 12 = PTR), the caller's callback, and
    how many repetitions of the query are left. *)
Record oq := { o_id : Z; o_name : list (list Z); o_qtype : Z; o_cb : Z; o_left : Z }.
Definition question (q : oq) : list Z := wire (o_name q) ++ [0; o_qtype q; 0; 1].
(** the query message: id, flags RD, one question *)
Definition query_msg (q : oq) : list Z := [o_id q / 256; o_id q mod 256; 1; 0; 0; 1; 0; 0; 0; 0; 0; 0] ++ question q.
(** A message answering [q]: same id; a response to a recursive query, not truncated, no
    error code; one question, the name equal up to case, type and class equal. *)
Definition answers (q : oq) (p : list Z) : Prop :=
  w16 p 0 = o_id q /\
  Z.testbit (w16 p 2) 15 = true /\ Z.testbit (w16 p 2) 8 = true /\ Z.testbit (w16 p 2) 9 = false /\ w16 p 2 mod 16 = 0 /\
  w16 p 4 = 1 /\ 12 + zlen (question q) <= zlen p /\
  map lower (sub p 12 (zlen (wire (o_name q)))) = map lower (wire (o_name q)) /\
  sub p (12 + zlen (wire (o_name q))) 4 = [0; o_qtype q; 0; 1].
(** A record in the answer section. *)
Definition answer_rr (q : oq) (p : list Z) (r : Z) : Prop := is_rr p (12 + zlen (question q)) (w16 p 6) r.

Inductive dspec (st : option oq) : dop -> dres * list dev_out -> option oq -> Prop :=
| Started name cb rnd e q : st = None -> 1 <= o_id q < 65536 -> text_of (o_name q) name -> Forall label_ok (o_name q) ->
    o_qtype q = 1 -> o_cb q = cb -> o_left q = 3 ->
    dspec st (DLookup name cb rnd e) (RRet 0, [Sent (query_msg q)]) (Some q)
| StartedPtr ip cb rnd e q : st = None -> 1 <= o_id q < 65536 -> o_name q = rev_labels ip ->
    o_qtype q = 12 -> o_cb q = cb -> o_left q = 3 ->
    dspec st (DPtr ip cb rnd e) (RRet 0, [Sent (query_msg q)]) (Some q)
| Refused name cb rnd e c : c < 0 -> (st <> None -> c = -16) -> dspec st (DLookup name cb rnd e) (RRet c, []) st
| RefusedPtr ip cb rnd e c : c < 0 -> (st <> None -> c = -16) -> dspec st (DPtr ip cb rnd e) (RRet c, []) st
| GotA p q r : st = Some q -> o_qtype q = 1 -> answers q p -> answer_rr q p r ->
    w16 p r = 1 -> w16 p (r + 2) = 1 -> w16 p (r + 8) = 4 ->
    dspec st (DRx p) (RNone, [CallA (o_cb q) (w32 p (r + 10))]) None
| GotPtr p q r ls rest : st = Some q -> o_qtype q = 12 -> answers q p -> answer_rr q p r ->
    w16 p r = 12 -> w16 p (r + 2) = 1 -> dname p (r + 10) ls ->
    dspec st (DRx p) (RNone, [CallPtr (o_cb q) (dotted ls ++ [0] ++ rest)]) None
| Ignored p : dspec st (DRx p) (RNone, []) st
| Dropped p : dspec st (DRx p) (RNone, []) None
| Failed : dspec st DRxFail (RNone, []) None
| TimerIdle b t : dspec st (DTimeout b t) (RNone, []) st
| Repeated b t q : st = Some q -> 0 < o_left q ->
    dspec st (DTimeout b t) (RNone, [Sent (query_msg q)]) (Some {| o_id := o_id q; o_name := o_name q; o_qtype := o_qtype q; o_cb := o_cb q; o_left := o_left q - 1 |})
| GaveUp b t : dspec st (DTimeout b t) (RNone, []) None.
Inductive dspec_run : option oq -> list dop -> list (dres * list dev_out) -> option oq -> Prop :=
| DR_nil st : dspec_run st [] [] st
| DR_cons st o r st1 os rs st2 : dspec st o r st1 -> dspec_run st1 os rs st2 -> dspec_run st (o :: os) (r :: rs) st2.

(** Inputs are byte strings, C strings contain no NUL; addresses are 32 bit. *)
Definition dop_ok (o : dop) : Prop :=
  match o with DRx p => Forall byte p | DLookup n _ rnd _ => Forall (fun c => 0 < c < 256) n /\ 0 <= rnd
             | DPtr ip _ rnd _ => 0 <= ip < 4294967296 /\ 0 <= rnd | _ => True end.

(** * Proofs *)
Lemma be16_val v : 0 <= v < 65536 -> be16 v = [v / 256; v mod 256].
Proof. intros H. unfold be16. rewrite shr by lia. change (2 ^ 8) with 256. rewrite Z.mod_small by lia. reflexivity. Qed.
(** state represents the outstanding question *)
Definition DRep (s : dnsc) (st : option oq) : Prop :=
  match st with
  | None => q_id s = 0 /\ q_buf s = []
  | Some q => q_id s = o_id q /\ 1 <= o_id q < 65536 /\ Forall label_ok (o_name q) /\ zlen (wire (o_name q)) <= 256 /\ q_buf s = query_msg q /\
      q_retry s = 3 - o_left q /\ 0 <= o_left q <= 3 /\
      (o_qtype q = 1 /\ q_type s = 1 /\ cb_a s = Some (o_cb q) \/ o_qtype q = 12 /\ q_type s = 2 /\ cb_ptr s = Some (o_cb q))
  end.
Lemma abort_rep s : DRep (dns_abort s) None.
Proof. split; reflexivity. Qed.

Lemma send_query_spec s name qtype rnd e cb ls0 : 0 <= rnd -> q_id s = 0 -> q_buf s = [] ->
  (qtype = 1 /\ cb_a s = Some cb \/ qtype = 12 /\ cb_ptr s = Some cb) ->
  (forall w, dns_encode_name name = Some w -> exists ls, w = wire ls /\ Forall label_ok ls /\ zlen (wire ls) <= 256 /\ ls0 ls) ->
  exists s' c outs, dns_send_query s name qtype rnd e = (s', c, outs) /\
    ((c < 0 /\ outs = [] /\ DRep s' None) \/
     (c = 0 /\ exists q, DRep s' (Some q) /\ 1 <= o_id q < 65536 /\ ls0 (o_name q) /\ Forall label_ok (o_name q) /\ o_qtype q = qtype /\ o_cb q = cb /\ o_left q = 3 /\ outs = [Sent (query_msg q)])).
Proof.
  intros HR I0 B0 HT HE. unfold dns_send_query.
  destruct (255 <? zlen name); [do 3 eexists; split; [reflexivity|left; split; [lia|split; [reflexivity|split; assumption]]]|].
  destruct (negb (e_server e)); [do 3 eexists; split; [reflexivity|left; split; [lia|split; [reflexivity|split; assumption]]]|].
  rewrite I0. cbn [Z.eqb negb].
  destruct (negb (e_sock e)); [do 3 eexists; split; [reflexivity|left; split; [lia|split; [reflexivity|split; assumption]]]|].
  set (id := if Z.land rnd 65535 =? 0 then 1 else Z.land rnd 65535).
  assert (HID : 1 <= id < 65536).
  { unfold id. change 65535 with (Z.ones 16). rewrite Z.land_ones by lia. change (2 ^ 16) with 65536. destruct (Z.eqb_spec (rnd mod 65536) 0); lia. }
  destruct (dns_encode_name name) as [w|] eqn:E; [|do 3 eexists; split; [reflexivity|left; split; [lia|split; [reflexivity|apply abort_rep]]]].
  destruct (HE w eq_refl) as (ls & -> & F & L & P).
  destruct (negb (e_conn e)); [do 3 eexists; split; [reflexivity|left; split; [lia|split; [reflexivity|apply abort_rep]]]|].
  destruct (negb (e_send e)); [do 3 eexists; split; [reflexivity|left; split; [lia|split; [reflexivity|apply abort_rep]]]|].
  set (q := {| o_id := id; o_name := ls; o_qtype := qtype; o_cb := cb; o_left := 3 |}).
  assert (EQ : be16 id ++ be16 256 ++ be16 1 ++ be16 0 ++ be16 0 ++ be16 0 ++ wire ls ++ be16 qtype ++ be16 1 = query_msg q).
  { unfold query_msg, question, q. cbn [o_id o_name o_qtype]. rewrite (be16_val id) by lia. destruct HT as [(-> & _)|(-> & _)]; reflexivity. }
  rewrite EQ. do 3 eexists. split; [reflexivity|]. right. split; [reflexivity|]. exists q. split.
  - unfold DRep. cbn [q_id q_buf q_retry q_type cb_a cb_ptr]. split; [reflexivity|]. split; [exact HID|]. split; [exact F|]. split; [exact L|]. split; [reflexivity|]. split; [reflexivity|]. split; [cbn; lia|].
    unfold q. cbn [o_qtype o_cb]. destruct HT as [(-> & HC)|(-> & HC)]; [left|right]; auto.
  - unfold q. cbn [o_id o_name o_qtype o_cb o_left]. auto 10.
Qed.

Lemma write_u8_dec8 v : 0 <= v < 256 -> dns_write_u8 v = dec8 v.
Proof.
  intros H. unfold dns_write_u8, dec8. destruct (Z.leb_spec 100 v).
  - change (zlen [48 + v / 100] =? 0) with false. cbn [negb]. rewrite orb_true_r. destruct (Z.ltb_spec v 10); [lia|]. destruct (Z.ltb_spec v 100); [lia|]. cbn [app].
    replace (v mod 100 / 10) with (v / 10 mod 10) by lia. replace (v mod 100 mod 10) with (v mod 10) by lia. reflexivity.
  - change (zlen (@nil Z) =? 0) with true. cbn [negb]. rewrite orb_false_r. destruct (Z.leb_spec 10 v).
    + destruct (Z.ltb_spec v 10); [lia|]. destruct (Z.ltb_spec v 100); [|lia]. reflexivity.
    + destruct (Z.ltb_spec v 10); [|lia]. reflexivity.
Qed.
Lemma dec8_len v : 1 <= zlen (dec8 v) <= 3.
Proof. unfold dec8. destruct (v <? 10); [cbn; lia|]. destruct (v <? 100); cbn; lia. Qed.
Lemma dec8_nodot v : 0 <= v < 256 -> ~ In 46 (dec8 v).
Proof.
  intros H. unfold dec8. destruct (v <? 10); [intros [X|[]]; lia|]. destruct (v <? 100); [intros [X|[X|[]]]; lia|]. intros [X|[X|[X|[]]]]; lia.
Qed.
Lemma format_ptr_spec ip : 0 <= ip < 4294967296 -> dns_format_ptr_name ip = Some (dotted (rev_labels ip)).
Proof.
  intros H. unfold dns_format_ptr_name.
  assert (O : forall k, 0 <= k <= 3 -> u8 (Z.land (Z.shiftr ip (8 * k)) 255) = ip / 2 ^ (8 * k) mod 256).
  { intros k Hk. rewrite shr by lia. change 255 with (Z.ones 8). rewrite Z.land_ones by lia. unfold u8. change (2 ^ 8) with 256. apply Z.mod_mod. lia. }
  cbn [fold_left]. rewrite !O by lia. change (2 ^ (8 * 0)) with 1. change (2 ^ (8 * 1)) with 256. change (2 ^ (8 * 2)) with 65536. change (2 ^ (8 * 3)) with 16777216.
  rewrite Z.div_1_r. rewrite !write_u8_dec8 by (apply Z.mod_pos_bound; lia).
  set (a := dec8 (ip mod 256)). set (b := dec8 (ip / 256 mod 256)). set (c := dec8 (ip / 65536 mod 256)). set (d := dec8 (ip / 16777216 mod 256)).
  assert (La : 1 <= zlen a <= 3) by apply dec8_len. assert (Lb : 1 <= zlen b <= 3) by apply dec8_len. assert (Lc : 1 <= zlen c <= 3) by apply dec8_len. assert (Ld : 1 <= zlen d <= 3) by apply dec8_len.
  assert (RW : rev_labels ip = [a; b; c; d; [105;110;45;97;100;100;114]; [97;114;112;97]]) by reflexivity. rewrite RW. clear RW. clearbody a b c d.
  repeat match goal with |- context[?x <=? ?y] => match y with context[zlen] => replace (x <=? y) with false by (symmetry; apply Z.leb_gt; rewrite ?zlen_app, ?zlen_cons, ?zlen_app; change (zlen (@nil Z)) with 0; lia) end end.
  cbn [app]. rewrite <- ?app_assoc. reflexivity.
Qed.
Lemma rev_labels_ok ip : 0 <= ip < 4294967296 -> Forall label_ok (rev_labels ip) /\ zlen (wire (rev_labels ip)) <= 256.
Proof.
  intros H. split.
  - unfold rev_labels. repeat constructor; try (pose proof (dec8_len (ip mod 256)); pose proof (dec8_len (ip / 256 mod 256)); pose proof (dec8_len (ip / 65536 mod 256)); pose proof (dec8_len (ip / 16777216 mod 256)); lia);
      try (apply dec8_nodot; apply Z.mod_pos_bound; lia); try (cbn; lia); intros X; cbn in X; repeat destruct X as [X|X]; try discriminate; auto.
  - unfold rev_labels. cbn [wire]. rewrite !zlen_cons, !zlen_app, !zlen_cons, !zlen_app, !zlen_cons, !zlen_app, !zlen_cons, !zlen_app.
    pose proof (dec8_len (ip mod 256)); pose proof (dec8_len (ip / 256 mod 256)); pose proof (dec8_len (ip / 65536 mod 256)); pose proof (dec8_len (ip / 16777216 mod 256)).
    match goal with |- context[zlen (?x :: ?y)] => change (zlen (x :: y)) with 14 end. lia.
Qed.

(** Reading fields *)
Lemma nth_sub p i n k : 0 <= i -> 0 <= k < n -> i + n <= zlen p -> zget (sub p i n) k = zget p (i + k).
Proof.
  intros Hi Hk L. unfold zget, sub. set (q := skipn (Z.to_nat i) p).
  assert (E : nth (Z.to_nat k) (firstn (Z.to_nat n) q) 0 = nth (Z.to_nat k) q 0).
  { rewrite <- (firstn_skipn (Z.to_nat n) q) at 2. rewrite app_nth1; [reflexivity|]. unfold q. rewrite firstn_length, skipn_length. unfold zlen in L. lia. }
  rewrite E. unfold q. rewrite <- (firstn_skipn (Z.to_nat i) p) at 2. rewrite app_nth2 by (rewrite firstn_length; unfold zlen in L; lia).
  f_equal. rewrite firstn_length. unfold zlen in L. lia.
Qed.
Lemma rd16_sub p i n k : 0 <= i -> 0 <= k -> k + 2 <= n -> i + n <= zlen p -> rd16 (sub p i n) k = w16 p (i + k).
Proof. intros. unfold rd16, w16. rewrite !nth_sub by lia. replace (i + (k + 1)) with (i + k + 1) by lia. reflexivity. Qed.
Lemma rd32_sub p i n k : 0 <= i -> 0 <= k -> k + 4 <= n -> i + n <= zlen p -> rd32 (sub p i n) k = w32 p (i + k).
Proof.
  intros. unfold rd32, w32, w16. rewrite !nth_sub by lia. replace (i + (k + 1)) with (i + k + 1) by lia. replace (i + (k + 2)) with (i + k + 2) by lia. replace (i + (k + 3)) with (i + k + 2 + 1) by lia. lia.
Qed.
Lemma w16_byte p i : Forall byte p -> 0 <= w16 p i < 65536.
Proof. intros F. unfold w16. pose proof (zget_byte p i F). pose proof (zget_byte p (i + 1) F). lia. Qed.

(** Question comparison *)
Lemma name_eq_spec a b : name_eq a b = true <-> map lower a = map lower b.
Proof.
  assert (T : forall c, dns_tolower c = lower c) by (intros c; unfold dns_tolower, lower; destruct ((65 <=? c) && (c <=? 90)); lia).
  revert b. induction a as [|x a IH]; intros [|y b]; cbn [name_eq map]; try (split; congruence).
  rewrite andb_true_iff, IH, Z.eqb_eq, !T. split; [intros (-> & ->); reflexivity|]. intros [= -> ->]. auto.
Qed.
Lemma bytes_eq_spec a b : bytes_eq a b = true <-> a = b.
Proof. revert b; induction a as [|x a IH]; intros [|y b]; cbn [bytes_eq]; try (split; congruence). rewrite andb_true_iff, IH, Z.eqb_eq. split; [intros (-> & ->); reflexivity|]. intros [= -> ->]. auto. Qed.
Lemma question_matches_spec q p : 12 <= zlen p -> exists b, dns_question_matches (query_msg q) p 12 = Some b /\
  (b = true -> 12 + zlen (question q) <= zlen p /\ map lower (sub p 12 (zlen (wire (o_name q)))) = map lower (wire (o_name q)) /\ sub p (12 + zlen (wire (o_name q))) 4 = [0; o_qtype q; 0; 1]).
Proof.
  intros LP. unfold dns_question_matches.
  assert (LQ : zlen (query_msg q) = 16 + zlen (wire (o_name q))) by (unfold query_msg, question; rewrite !zlen_app; change (zlen [0; o_qtype q; 0; 1]) with 4; change (zlen [o_id q / 256; o_id q mod 256; 1; 0; 0; 1; 0; 0; 0; 0; 0; 0]) with 12; lia).
  assert (LQ2 : zlen (question q) = zlen (wire (o_name q)) + 4) by (unfold question; rewrite zlen_app; reflexivity).
  rewrite LQ. replace (16 + zlen (wire (o_name q)) - 12 - 4) with (zlen (wire (o_name q))) by lia. replace (16 + zlen (wire (o_name q)) - 12) with (zlen (wire (o_name q)) + 4) by lia.
  destruct (Z.leb_spec (zlen (wire (o_name q))) 0); [exists false; split; [reflexivity|discriminate]|].
  destruct (Z.ltb_spec 12 0); [lia|]. cbn [orb]. destruct (Z.ltb_spec (zlen p - 12) (zlen (wire (o_name q)) + 4)); [exists false; split; [reflexivity|discriminate]|].
  rewrite mread_sub by lia. cbn [obind]. unfold query_msg at 1. unfold question at 1.
  rewrite (mread_eq _ [o_id q / 256; o_id q mod 256; 1; 0; 0; 1; 0; 0; 0; 0; 0; 0] (wire (o_name q)) [0; o_qtype q; 0; 1]) by reflexivity. cbn [obind].
  destruct (name_eq (sub p 12 (zlen (wire (o_name q)))) (wire (o_name q))) eqn:E; [|exists false; split; [reflexivity|discriminate]]. cbn [negb].
  rewrite mread_sub by lia. cbn [obind]. unfold query_msg, question.
  rewrite (mread_eq _ ([o_id q / 256; o_id q mod 256; 1; 0; 0; 1; 0; 0; 0; 0; 0; 0] ++ wire (o_name q)) [0; o_qtype q; 0; 1] []).
  2:{ rewrite app_nil_r, <- app_assoc. reflexivity. } 2:{ rewrite zlen_app. reflexivity. } 2:{ reflexivity. }
  cbn [obind]. eexists. split; [reflexivity|]. intros B. apply bytes_eq_spec in B. apply name_eq_spec in E. rewrite zlen_app. change (zlen [0; o_qtype q; 0; 1]) with 4. split; [lia|]. auto.
Qed.
(** the echoed name ends where the question's name does *)
Lemma echoed_end ls : Forall label_ok ls -> forall a w b, Forall byte w -> map lower w = map lower (wire ls) -> name_end (a ++ w ++ b) (zlen a) (zlen a + zlen (wire ls)).
Proof.
  assert (LW : forall x y, 0 <= x < 256 -> 0 <= y <= 63 -> lower x = lower y -> x = y).
  { intros x y Hx Hy. unfold lower. destruct ((65 <=? x) && (x <=? 90)) eqn:E1, ((65 <=? y) && (y <=? 90)) eqn:E2; lia. }
  induction ls as [|l ls IH]; intros F a w b BW M; cbn [wire] in *.
  - destruct w as [|x [|? ?]]; try discriminate. cbn [map] in M. injection M as M. inversion BW; subst. apply LW in M; [|assumption|lia]. subst x. change (zlen [0]) with 1.
    apply NE_end; [rewrite !zlen_app; change (zlen [0]) with 1; pose proof (zlen_nonneg a); pose proof (zlen_nonneg b); lia|]. apply zget_app. reflexivity.
  - inversion F as [|? ? (L & _) F']; subst. destruct w as [|x w]; [discriminate|]. cbn [map] in M. injection M as M0 M. inversion BW as [|? ? BX BW']; subst. apply LW in M0; [|exact BX|lia]. subst x.
    rewrite map_app in M. 
    assert (LEN : zlen w = zlen l + zlen (wire ls)). { apply (f_equal (@zlen Z)) in M. rewrite zlen_app in M. unfold zlen in *. rewrite !map_length in M. lia. }
    pose proof (zlen_nonneg (wire ls)). destruct (split_at w (zlen l) ltac:(lia)) as (w1 & w2 & -> & L1 & L2).
    rewrite map_app in M. assert (EW : map lower w1 = map lower l /\ map lower w2 = map lower (wire ls)).
    { assert (LL : length (map lower w1) = length (map lower l)) by (rewrite !map_length; unfold zlen in L1; lia). revert M LL. generalize (map lower w1) (map lower l) (map lower w2) (map lower (wire ls)). clear.
      induction l as [|x u IH]; intros [|y v] r s M LL; try discriminate; [auto|]. cbn in M, LL. injection M as -> M. destruct (IH v r s M ltac:(lia)) as (-> & ->). auto. }
    destruct EW as (_ & EW). apply Forall_app in BW' as (_ & BW2). specialize (IH F' (a ++ zlen l :: w1) w2 b BW2 EW).
    assert (EP : a ++ (zlen l :: w1 ++ w2) ++ b = (a ++ zlen l :: w1) ++ w2 ++ b) by (cbn [app]; rewrite <- !app_assoc; reflexivity).
    assert (G : zget (a ++ (zlen l :: w1 ++ w2) ++ b) (zlen a) = zlen l) by (apply zget_app; reflexivity).
    assert (LP : zlen (a ++ (zlen l :: w1 ++ w2) ++ b) = zlen a + 1 + zlen l + zlen w2 + zlen b) by (rewrite EP, !zlen_app, zlen_cons; lia).
    pose proof (zlen_nonneg a). pose proof (zlen_nonneg b). apply NE_label; rewrite ?G; try lia.
    rewrite zlen_cons, zlen_app. replace (zlen a + (1 + (zlen l + zlen (wire ls)))) with (zlen (a ++ zlen l :: w1) + zlen (wire ls)) by (rewrite zlen_app, zlen_cons; lia).
    replace (zlen a + 1 + zlen l) with (zlen (a ++ zlen l :: w1)) by (rewrite zlen_app, zlen_cons; lia). rewrite EP. exact IH.
Qed.

(** The answer loop *)
Lemma answers_spec s p : Forall byte p -> forall fuel pos, 0 < pos <= zlen p ->
  exists s' outs, dns_answers fuel s p pos = Some (s', outs) /\
   ((s' = s /\ outs = []) \/ (s' = dns_init /\ outs = []) \/
    (s' = dns_init /\ exists r, is_rr p pos (Z.of_nat fuel) r /\ 
       ((q_type s = 1 /\ w16 p r = 1 /\ w16 p (r + 2) = 1 /\ w16 p (r + 8) = 4 /\ outs = match cb_a s with Some cb => [CallA cb (w32 p (r + 10))] | None => [] end) \/
        (q_type s = 2 /\ w16 p r = 12 /\ w16 p (r + 2) = 1 /\ exists ls rest, dname p (r + 10) ls /\ outs = match cb_ptr s with Some cb => [CallPtr cb (dotted ls ++ [0] ++ rest)] | None => [] end)))).
Proof.
  intros BP. induction fuel as [|fuel IH]; intros pos HP; cbn [dns_answers]; [do 2 eexists; split; [reflexivity|left; auto]|].
  destruct (dns_skip_name_exact p pos BP HP) as (r & -> & R). cbn [obind]. destruct r as [e|]; [|do 2 eexists; split; [reflexivity|right; left; auto]].
  destruct R as (RE & RN). destruct (Z.ltb_spec (zlen p) (e + 10)); [do 2 eexists; split; [reflexivity|right; left; auto]|].
  assert (NE : name_end p pos e) by (destruct RN as [|(RN & _)]; [assumption|lia]). clear RN.
  rewrite mread_sub by lia. cbn [obind]. rewrite !rd16_sub by lia. rewrite Z.add_0_r. pose proof (w16_byte p (e + 8) BP).
  destruct (Z.ltb_spec (zlen p) (e + 10 + w16 p (e + 8))); [do 2 eexists; split; [reflexivity|right; left; auto]|].
  assert (HERE : is_rr p pos (Z.of_nat (S fuel)) e) by (apply RR_here; auto; lia).
  assert (NEXT : exists s' outs, dns_answers fuel s p (e + 10 + w16 p (e + 8)) = Some (s', outs) /\
   ((s' = s /\ outs = []) \/ (s' = dns_init /\ outs = []) \/
    (s' = dns_init /\ exists r, is_rr p pos (Z.of_nat (S fuel)) r /\ 
       ((q_type s = 1 /\ w16 p r = 1 /\ w16 p (r + 2) = 1 /\ w16 p (r + 8) = 4 /\ outs = match cb_a s with Some cb => [CallA cb (w32 p (r + 10))] | None => [] end) \/
        (q_type s = 2 /\ w16 p r = 12 /\ w16 p (r + 2) = 1 /\ exists ls rest, dname p (r + 10) ls /\ outs = match cb_ptr s with Some cb => [CallPtr cb (dotted ls ++ [0] ++ rest)] | None => [] end))))).
  { destruct (IH (e + 10 + w16 p (e + 8)) ltac:(lia)) as (s' & outs & E & D). exists s', outs. split; [exact E|]. destruct D as [D|[D|(D1 & r & D2 & D3)]]; auto.
    right. right. split; [exact D1|]. exists r. split; [|exact D3]. apply RR_next with e; auto; [lia|]. replace (Z.of_nat (S fuel) - 1) with (Z.of_nat fuel) by lia. exact D2. }
  destruct ((q_type s =? 1) && (w16 p e =? 1) && (w16 p (e + 2) =? 1) && (w16 p (e + 8) =? 4)) eqn:T1.
  { rewrite mread_sub by lia. cbn [obind]. rewrite rd32_sub by lia. rewrite Z.add_0_r. do 2 eexists. split; [reflexivity|]. right. right. split; [reflexivity|]. exists e. split; [exact HERE|]. left.
    split; [lia|]. split; [lia|]. split; [lia|]. split; [lia|reflexivity]. }
  destruct ((q_type s =? 2) && (w16 p e =? 12) && (w16 p (e + 2) =? 1)) eqn:T2; [|exact NEXT].
  destruct (dns_copy_name_exact p (e + 10) (repeat 0 256) BP ltac:(lia)) as (n & -> & N). cbn [obind]. destruct n as [out|]; [|exact NEXT].
  destruct N as (ls & rest & D & -> & _). do 2 eexists. split; [reflexivity|]. right. right. split; [reflexivity|]. exists e. split; [exact HERE|]. right.
  split; [lia|]. split; [lia|]. split; [lia|]. exists ls, rest. auto.
Qed.

Lemma land_bits f : 0 <= f -> Z.land f 33024 = 33024 -> Z.land f 512 = 0 -> Z.testbit f 15 = true /\ Z.testbit f 8 = true /\ Z.testbit f 9 = false.
Proof.
  intros F A B.
  assert (A1 : Z.testbit (Z.land f 33024) 15 = true) by (rewrite A; reflexivity). rewrite Z.land_spec in A1. change (Z.testbit 33024 15) with true in A1. rewrite andb_true_r in A1.
  assert (A2 : Z.testbit (Z.land f 33024) 8 = true) by (rewrite A; reflexivity). rewrite Z.land_spec in A2. change (Z.testbit 33024 8) with true in A2. rewrite andb_true_r in A2.
  assert (A3 : Z.testbit (Z.land f 512) 9 = false) by (rewrite B; reflexivity). rewrite Z.land_spec in A3. change (Z.testbit 512 9) with true in A3. rewrite andb_true_r in A3. auto.
Qed.

Lemma step_refines s st o : DRep s st -> dop_ok o -> exists s' r st', dstep s o = Some (s', r) /\ dspec st o r st' /\ DRep s' st'.
Proof.
  intros HR HO. destruct o as [name cb rnd e|ip cb rnd e|p| |b t]; cbn [dstep dop_ok] in *.
  - unfold nslookup. destruct st as [q|].
    + destruct HR as (I & J & K). pose proof (conj I (conj J K)) as HR. destruct (Z.eqb_spec (q_id s) 0); [lia|]. cbn [negb]. do 3 eexists. split; [reflexivity|]. split; [apply Refused; [lia|auto]|exact HR].
    + destruct HR as (I & B). rewrite I. cbn [Z.eqb negb]. destruct HO as (HN & HRN).
      destruct (send_query_spec {| q_id := 0; q_type := 1; q_buf := q_buf s; q_retry := q_retry s; q_timer := q_timer s; cb_a := Some cb; cb_ptr := None |} name 1 rnd e cb (fun ls => text_of ls name)) as (s' & c & outs & E & D); auto.
      { intros w EW. apply dns_encode_exact in EW as (ls & T & F & L & ->). exists ls. auto. }
      rewrite E. destruct D as [(C & -> & R)|(-> & q & R & ID & T & F & QT & CB & LF & ->)].
      * do 3 eexists. split; [reflexivity|]. split; [apply Refused; [exact C|congruence]|exact R].
      * do 3 eexists. split; [reflexivity|]. split; [apply Started; auto|exact R].
  - unfold ptr_lookup. destruct HO as (HIP & HRN). rewrite format_ptr_spec by assumption. destruct st as [q|].
    + destruct HR as (I & J & K). pose proof (conj I (conj J K)) as HR. destruct (Z.eqb_spec (q_id s) 0); [lia|]. cbn [negb]. do 3 eexists. split; [reflexivity|]. split; [apply RefusedPtr; [lia|auto]|exact HR].
    + destruct HR as (I & B). rewrite I. cbn [Z.eqb negb]. destruct (rev_labels_ok ip HIP) as (FL & LL).
      destruct (send_query_spec {| q_id := 0; q_type := 2; q_buf := q_buf s; q_retry := q_retry s; q_timer := q_timer s; cb_a := None; cb_ptr := Some cb |} (dotted (rev_labels ip)) 12 rnd e cb (fun ls => ls = rev_labels ip)) as (s' & c & outs & E & D); auto.
      { intros w EW. exists (rev_labels ip). split; [|auto]. assert (EW2 : dns_encode_name (dotted (rev_labels ip)) = Some (wire (rev_labels ip))).
        { apply dns_encode_exact. exists (rev_labels ip). split; [left; reflexivity|]. auto. } congruence. }
      rewrite E. destruct D as [(C & -> & R)|(-> & q & R & ID & T & F & QT & CB & LF & ->)].
      * do 3 eexists. split; [reflexivity|]. split; [apply RefusedPtr; [exact C|congruence]|exact R].
      * do 3 eexists. split; [reflexivity|]. split; [apply StartedPtr; auto|exact R].
  - assert (IGN : exists s' r st', Some (s, (RNone, @nil dev_out)) = Some (s', r) /\ dspec st (DRx p) r st' /\ DRep s' st') by (do 3 eexists; split; [reflexivity|]; split; [apply Ignored|exact HR]).
    assert (DRP : exists s' r st', Some (dns_abort s, (RNone, @nil dev_out)) = Some (s', r) /\ dspec st (DRx p) r st' /\ DRep s' st') by (do 3 eexists; split; [reflexivity|]; split; [apply Dropped|apply abort_rep]).
    unfold dns_rx. destruct (Z.ltb_spec (zlen p) 12) as [L|L]; [exact IGN|]. rewrite mread_sub by lia. cbn [obind]. rewrite !rd16_sub by lia. rewrite !Z.add_0_l.
    destruct (Z.eqb_spec (w16 p 0) (q_id s)) as [EI|EI]; [|exact IGN]. cbn [negb].
    destruct (Z.eqb_spec (Z.land (w16 p 2) 33024) 33024) as [F1|F1]; [|exact IGN]. cbn [negb].
    destruct (Z.eqb_spec (Z.land (w16 p 2) 512) 0) as [F2|F2]; [|exact DRP]. cbn [negb].
    destruct (Z.eqb_spec (Z.land (w16 p 2) 15) 0) as [F3|F3]; [|exact DRP]. cbn [negb].
    destruct (Z.eqb_spec (w16 p 4) 1) as [QC|QC]; [|exact IGN]. cbn [negb].
    destruct (dns_skip_name_exact p 12 HO ltac:(lia)) as (r & -> & R). cbn [obind]. destruct r as [e|]; [|exact DRP].
    destruct R as (RE & RN). destruct (Z.ltb_spec (zlen p) (e + 4)) as [L4|L4]; [exact DRP|].
    assert (NE : name_end p 12 e) by (destruct RN as [|(RN & _)]; [assumption|lia]). clear RN.
    destruct st as [q|].
    2:{ destruct HR as (I & B). rewrite B. change (dns_question_matches [] p 12) with (Some false). cbn [obind negb]. exact IGN. }
    pose proof HR as HR0. destruct HR as (I & J & FL & LW & B & RT & LF & TY). rewrite B. destruct (question_matches_spec q p L) as (bm & -> & M). cbn [obind]. destruct bm; [|exact IGN]. cbn [negb].
    destruct (M eq_refl) as (M1 & M2 & M3). clear M.
    assert (LQ : zlen (question q) = zlen (wire (o_name q)) + 4) by (unfold question; rewrite zlen_app; reflexivity). pose proof (zlen_nonneg (wire (o_name q))).
    assert (EE : e = 12 + zlen (wire (o_name q))).
    { destruct (split_at p 12 ltac:(lia)) as (a & b & -> & La & Lb). destruct (split_at b (zlen (wire (o_name q))) ltac:(rewrite zlen_app in *; lia)) as (w & b' & -> & Lw & Lb').
      rewrite <- Lw in M2. rewrite <- La in M2. rewrite sub_app in M2. rewrite <- La. rewrite <- La in NE. apply (name_end_det _ _ _ NE). apply echoed_end; auto.
      apply Forall_app in HO as (_ & HO). apply Forall_app in HO as (HO & _). exact HO. }
    pose proof (w16_byte p 6 HO). pose proof (w16_byte p 2 HO).
    assert (AN : answers q p).
    { destruct (land_bits (w16 p 2) ltac:(lia) F1 F2) as (X1 & X2 & X3). change 15 with (Z.ones 4) in F3. rewrite Z.land_ones in F3 by lia. change (2 ^ 4) with 16 in F3.
      split; [lia|]. auto 12. }
    destruct (answers_spec s p HO (Z.to_nat (w16 p 6)) (e + 4) ltac:(lia)) as (s' & outs & -> & D). cbn [obind].
    destruct D as [(-> & ->)|[(-> & ->)|(-> & r & RR & D)]]; [exact IGN|exact DRP|].
    rewrite Z2Nat.id in RR by lia. assert (RR' : answer_rr q p r) by (unfold answer_rr; rewrite LQ; replace (12 + (zlen (wire (o_name q)) + 4)) with (e + 4) by lia; exact RR).
    destruct D as [(T & T1 & T2 & T3 & ->)|(T & T1 & T2 & ls & rest & DN & ->)].
    + destruct TY as [(Y1 & Y2 & Y3)|(Y1 & Y2 & Y3)]; [|lia]. rewrite Y3. do 3 eexists. split; [reflexivity|]. split; [eapply GotA; eauto|exact (abort_rep s)].
    + destruct TY as [(Y1 & Y2 & Y3)|(Y1 & Y2 & Y3)]; [lia|]. rewrite Y3. do 3 eexists. split; [reflexivity|]. split; [eapply GotPtr; eauto|exact (abort_rep s)].
  - do 3 eexists. split; [reflexivity|]. split; [apply Failed|apply abort_rep].
  - unfold dns_timeout. destruct (negb (q_timer s)); [do 3 eexists; split; [reflexivity|]; split; [apply TimerIdle|exact HR]|]. cbn [q_id q_retry q_buf q_type cb_a cb_ptr].
    destruct st as [q|].
    + destruct HR as (I & J & FL & LW & B & RT & LF & TY). destruct (Z.eqb_spec (q_id s) 0); [lia|]. destruct (Z.ltb_spec (q_retry s) 3).
      * destruct (negb b || (zlen (q_buf s) =? 0)); [do 3 eexists; split; [reflexivity|]; split; [apply GaveUp|apply abort_rep]|].
        do 3 eexists. split; [reflexivity|]. rewrite B. split; [apply Repeated; [reflexivity|lia]|]. unfold DRep. cbn [q_id q_retry q_buf q_type cb_a cb_ptr o_id o_name o_qtype o_cb o_left].
        split; [exact I|]. split; [exact J|]. split; [exact FL|]. split; [exact LW|]. split; [reflexivity|]. split; [lia|]. split; [lia|exact TY].
      * do 3 eexists; split; [reflexivity|]; split; [apply GaveUp|apply abort_rep].
    + destruct HR as (I & B). rewrite I. cbn [Z.eqb]. do 3 eexists; split; [reflexivity|]; split; [apply TimerIdle|]. split; [reflexivity|exact B].
Qed.

(** [first_a p pos n r]: the first internet address record among the [n] records from
    [pos] has its fixed part at [r]. *)
Inductive first_a (p : list Z) : Z -> Z -> Z -> Prop :=
| FA_here pos n r : 0 < n -> name_end p pos r -> r + 14 <= zlen p -> w16 p r = 1 -> w16 p (r + 2) = 1 -> w16 p (r + 8) = 4 -> first_a p pos n r
| FA_next pos n r0 r : 0 < n -> name_end p pos r0 -> r0 + 10 + w16 p (r0 + 8) <= zlen p -> ~ (w16 p r0 = 1 /\ w16 p (r0 + 2) = 1 /\ w16 p (r0 + 8) = 4) ->
    first_a p (r0 + 10 + w16 p (r0 + 8)) (n - 1) r -> first_a p pos n r.
Lemma skip_exact_end p pos e : Forall byte p -> 0 < pos -> name_end p pos e -> dns_skip_name p pos = Some (Some e).
Proof.
  intros BP HP NE. pose proof (name_end_range _ _ _ NE) as RG. destruct (dns_skip_name_exact p pos BP ltac:(lia)) as (r & -> & R). destruct r as [e'|]; [|exfalso; apply (R _ NE)].
  destruct R as (R1 & [R2|(_ & R2)]); [rewrite (name_end_det _ _ _ NE _ R2); reflexivity|]. exfalso. apply (R2 _ NE).
Qed.
Lemma answers_deliver s p : Forall byte p -> q_type s = 1 -> forall pos n r, first_a p pos n r -> 0 < pos ->
  dns_answers (Z.to_nat n) s p pos = Some (dns_init, match cb_a s with Some cb => [CallA cb (w32 p (r + 10))] | None => [] end).
Proof.
  intros BP T. induction 1 as [pos n r HN NE L T1 T2 T3|pos n r0 r HN NE L NM _ IH]; intros HP; (destruct (Z.to_nat n) as [|k] eqn:EK; [lia|]); cbn [dns_answers];
    rewrite (skip_exact_end _ _ _ BP HP NE); cbn [obind]; pose proof (name_end_range _ _ _ NE) as RG.
  - destruct (Z.ltb_spec (zlen p) (r + 10)); [lia|]. rewrite mread_sub by lia. cbn [obind]. rewrite !rd16_sub by lia. rewrite Z.add_0_r, T1, T2, T3, T.
    destruct (Z.ltb_spec (zlen p) (r + 10 + 4)); [lia|]. change ((1 =? 1) && (1 =? 1) && (1 =? 1) && (4 =? 4)) with true. cbv iota. rewrite mread_sub by lia. cbn [obind]. rewrite rd32_sub by lia. rewrite Z.add_0_r. reflexivity.
  - pose proof (w16_byte p (r0 + 8) BP). destruct (Z.ltb_spec (zlen p) (r0 + 10)); [lia|]. rewrite mread_sub by lia. cbn [obind]. rewrite !rd16_sub by lia. rewrite Z.add_0_r, T.
    destruct (Z.ltb_spec (zlen p) (r0 + 10 + w16 p (r0 + 8))); [lia|]. change (1 =? 2) with false. cbn [andb].
    destruct ((1 =? 1) && (w16 p r0 =? 1) && (w16 p (r0 + 2) =? 1) && (w16 p (r0 + 8) =? 4)) eqn:TT; [exfalso; apply NM; lia|].
    rewrite <- IH by lia. f_equal. lia.
Qed.

(** C24 (and C23 for every received packet).  Every history of lookups, received
    datagrams and timer expiries runs without an out-of-bounds access and is a history
    of the specification: answers are delivered only from a message answering the
    outstanding question, to that question's callback, and end the question. *)
Theorem dns_client_refines_spec : forall os, Forall dop_ok os ->
  exists s rs st, drun dns_init os = Some (s, rs) /\ dspec_run None os rs st.
Proof.
  assert (G : forall os s st, DRep s st -> Forall dop_ok os -> exists s' rs st', drun s os = Some (s', rs) /\ dspec_run st os rs st').
  { induction os as [|o os IH]; intros s st HR HO; cbn [drun]; [exists s, [], st; split; [reflexivity|constructor]|]. inversion HO; subst.
    destruct (step_refines s st o HR ltac:(assumption)) as (s1 & r & st1 & E & S & HR1). rewrite E. cbn [obind]. destruct (IH s1 st1 HR1 ltac:(assumption)) as (s2 & rs & st2 & E2 & S2). rewrite E2. cbn [obind].
    do 3 eexists. split; [reflexivity|]. econstructor; eauto. }
  intros os HO. apply (G os dns_init None); [exact (abort_rep dns_init)|exact HO].
Qed.

(** C24.  The true answer is not lost: whatever the history, if afterwards a question for
    an address is outstanding (in the sense of the specification), any message answering
    it is delivered with its first address record. *)
Theorem dns_answer_is_delivered : forall os, Forall dop_ok os ->
  exists s rs st, drun dns_init os = Some (s, rs) /\ dspec_run None os rs st /\
  forall q p r, st = Some q -> o_qtype q = 1 -> Forall byte p -> answers q p -> first_a p (12 + zlen (question q)) (w16 p 6) r ->
    option_map snd (dstep s (DRx p)) = Some (RNone, [CallA (o_cb q) (w32 p (r + 10))]).
Proof.
  assert (G : forall os s st, DRep s st -> Forall dop_ok os -> exists s' rs st', drun s os = Some (s', rs) /\ dspec_run st os rs st' /\ DRep s' st').
  { induction os as [|o os IH]; intros s st HR HO; cbn [drun]; [exists s, [], st; split; [reflexivity|split; [constructor|exact HR]]|]. inversion HO; subst.
    destruct (step_refines s st o HR ltac:(assumption)) as (s1 & r & st1 & E & S & HR1). rewrite E. cbn [obind]. destruct (IH s1 st1 HR1 ltac:(assumption)) as (s2 & rs & st2 & E2 & S2 & HR2). rewrite E2. cbn [obind].
    do 3 eexists. split; [reflexivity|]. split; [econstructor; eauto|exact HR2]. }
  intros os HO. destruct (G os dns_init None (abort_rep dns_init) HO) as (s & rs & st & E & R & HR). exists s, rs, st. split; [exact E|]. split; [exact R|].
  intros q p r -> QT BP (A1 & A2 & A3 & A4 & A5 & A6 & A7 & A8 & A9) FA. destruct HR as (I & J & FL & LW & B & RT & LF & TY).
  destruct TY as [(Y1 & Y2 & Y3)|(Y1 & _)]; [|lia].
  assert (LQ : zlen (question q) = zlen (wire (o_name q)) + 4) by (unfold question; rewrite zlen_app; reflexivity). pose proof (zlen_nonneg (wire (o_name q))).
  cbn [dstep]. unfold dns_rx. destruct (Z.ltb_spec (zlen p) 12); [lia|]. rewrite mread_sub by lia. cbn [obind]. rewrite !rd16_sub by lia. rewrite !Z.add_0_l.
  rewrite A1, I, Z.eqb_refl. cbn [negb]. pose proof (w16_byte p 2 BP).
  assert (F1 : Z.land (w16 p 2) 33024 = 33024).
  { apply Z.bits_inj'. intros n Hn. rewrite Z.land_spec. destruct (Z.eq_dec n 15) as [-> |]; [rewrite A2; reflexivity|]. destruct (Z.eq_dec n 8) as [-> |]; [rewrite A3; reflexivity|].
    assert (TB : Z.testbit 33024 n = false); [|rewrite TB, andb_false_r; reflexivity]. change 33024 with (2 ^ 15 + 2 ^ 8). rewrite <- (lor_add (2 ^ 15) (2 ^ 8) 9) by (cbn; lia || reflexivity).
    rewrite Z.lor_spec, !Z.pow2_bits_false by lia. reflexivity. }
  assert (F2 : Z.land (w16 p 2) 512 = 0).
  { change 512 with (2 ^ 9). apply Z.eqb_eq. rewrite land_pow2_zero by lia. rewrite A4. reflexivity. }
  assert (F3 : Z.land (w16 p 2) 15 = 0) by (change 15 with (Z.ones 4); rewrite Z.land_ones by lia; exact A5).
  rewrite F1, F2, F3, A6. change (33024 =? 33024) with true. change (0 =? 0) with true. change (1 =? 1) with true. cbn [negb].
  assert (NE : name_end p 12 (12 + zlen (wire (o_name q)))).
  { destruct (split_at p 12 ltac:(lia)) as (a & b & -> & La & Lb). destruct (split_at b (zlen (wire (o_name q))) ltac:(rewrite zlen_app in *; lia)) as (w & b' & -> & Lw & Lb').
    rewrite <- Lw in A8. rewrite <- La in A8. rewrite sub_app in A8. rewrite <- La. apply echoed_end; auto. apply Forall_app in BP as (_ & BP). apply Forall_app in BP as (BP & _). exact BP. }
  rewrite (skip_exact_end p 12 _ BP ltac:(lia) NE). cbn [obind]. destruct (Z.ltb_spec (zlen p) (12 + zlen (wire (o_name q)) + 4)); [lia|]. rewrite B.
  assert (M : dns_question_matches (query_msg q) p 12 = Some true).
  { unfold dns_question_matches.
    assert (LM : zlen (query_msg q) = 16 + zlen (wire (o_name q))) by (unfold query_msg; rewrite zlen_app, LQ; change (zlen [o_id q / 256; o_id q mod 256; 1; 0; 0; 1; 0; 0; 0; 0; 0; 0]) with 12; lia).
    rewrite LM. replace (16 + zlen (wire (o_name q)) - 12 - 4) with (zlen (wire (o_name q))) by lia. replace (16 + zlen (wire (o_name q)) - 12) with (zlen (wire (o_name q)) + 4) by lia.
    assert (LP : 1 <= zlen (wire (o_name q))) by (destruct (o_name q); cbn [wire]; rewrite zlen_cons; [change (zlen (@nil Z)) with 0; lia|pose proof (zlen_nonneg (l ++ wire l0)); lia]).
    destruct (Z.leb_spec (zlen (wire (o_name q))) 0); [lia|]. destruct (Z.ltb_spec 12 0); [lia|]. cbn [orb]. destruct (Z.ltb_spec (zlen p - 12) (zlen (wire (o_name q)) + 4)); [lia|].
    rewrite mread_sub by lia. cbn [obind]. unfold query_msg, question.
    rewrite (mread_eq _ [o_id q / 256; o_id q mod 256; 1; 0; 0; 1; 0; 0; 0; 0; 0; 0] (wire (o_name q)) [0; o_qtype q; 0; 1]) by reflexivity. cbn [obind].
    rewrite (proj2 (name_eq_spec _ _) A8). cbn [negb]. rewrite mread_sub by lia. cbn [obind].
    rewrite (mread_eq _ ([o_id q / 256; o_id q mod 256; 1; 0; 0; 1; 0; 0; 0; 0; 0; 0] ++ wire (o_name q)) [0; o_qtype q; 0; 1] []).
    2:{ rewrite app_nil_r, <- app_assoc. reflexivity. } 2:{ rewrite zlen_app. reflexivity. } 2:{ reflexivity. }
    cbn [obind]. f_equal. apply bytes_eq_spec. exact A9. }
  rewrite M. cbn [obind negb]. rewrite LQ in FA. replace (12 + (zlen (wire (o_name q)) + 4)) with (12 + zlen (wire (o_name q)) + 4) in FA by lia.
  rewrite (answers_deliver s p BP Y2 (12 + zlen (wire (o_name q)) + 4) _ _ FA ltac:(lia)). rewrite Y3. reflexivity.
Qed.

(** Successful lookups and callback invocations of a history. *)
Definition is_start (r : dres * list dev_out) : nat := match fst r with RRet 0 => 1 | _ => 0 end.
Definition calls (r : dres * list dev_out) : nat := length (filter (fun d => match d with Sent _ => false | _ => true end) (snd r)).
Definition sends (r : dres * list dev_out) : nat := length (filter (fun d => match d with Sent _ => true | _ => false end) (snd r)).
Definition total (f : dres * list dev_out -> nat) rs := fold_right plus 0%nat (map f rs).
(** C24.  At every point of every history at most one callback has been invoked, and at
    most four copies of the query sent, per successful lookup.  (That none is invoked
    while no lookup is outstanding is part of the specification refined above.) *)
Theorem dns_at_most_one_answer : forall os s rs, Forall dop_ok os -> drun dns_init os = Some (s, rs) ->
  (total calls rs <= total is_start rs)%nat /\ (total sends rs <= 4 * total is_start rs)%nat.
Proof.
  intros os s rs HO E. destruct (dns_client_refines_spec os HO) as (s2 & rs2 & st & E2 & R). rewrite E in E2. assert (rs = rs2) by congruence. subst rs2. clear - R.
  assert (G : forall st0 os rs st, dspec_run st0 os rs st -> match st0 with Some q => 0 <= o_left q | None => True end ->
     (total calls rs <= total is_start rs + match st0 with Some _ => 1 | None => 0 end)%nat /\
     (Z.of_nat (total sends rs) <= 4 * Z.of_nat (total is_start rs) + match st0 with Some q => o_left q | None => 0 end)).
  { clear. induction 1 as [st|st o r st1 os rs st2 S R IH]; intros HL; [cbn; destruct st; split; lia|]. unfold total in *. cbn [map fold_right].
    assert (IH' : match st1 with Some q => 0 <= o_left q | None => True end -> (fold_right Init.Nat.add 0%nat (map calls rs) <= fold_right Init.Nat.add 0%nat (map is_start rs) + match st1 with Some _ => 1 | None => 0 end)%nat /\ (Z.of_nat (fold_right Init.Nat.add 0%nat (map sends rs)) <= 4 * Z.of_nat (fold_right Init.Nat.add 0%nat (map is_start rs)) + match st1 with Some q => o_left q | None => 0 end)) by exact IH. clear IH.
    revert IH'. generalize (fold_right Init.Nat.add 0%nat (map calls rs)) (fold_right Init.Nat.add 0%nat (map is_start rs)) (fold_right Init.Nat.add 0%nat (map sends rs)). intros A B C IH'.
    inversion S; subst; unfold is_start, calls, sends; cbn [fst snd filter length plus]; try (destruct c; try lia); cbn [o_left] in *.
    all: try (specialize (IH' ltac:(try exact I; try exact HL; cbn; lia))); try (destruct st1 as [q'|]); try (destruct st as [q''|]); cbn [o_left] in *; try lia. }
  destruct (G _ _ _ _ R I). split; lia.
Qed.

Print Assumptions dns_client_refines_spec.
Print Assumptions dns_answer_is_delivered.
Print Assumptions dns_at_most_one_answer.

(** Non-vacuity: a lookup of "a.b", a forged answer with a wrong name, the true answer
    (delivered), a duplicate of it (ignored). *)
Definition env_ok := {| e_server := true; e_sock := true; e_conn := true; e_send := true; e_timer := true |}.
Definition ans (nm : Z) := [1;2; 129;128; 0;1; 0;1; 0;0; 0;0; 1;nm;1;98;0; 0;1; 0;1; 192;12; 0;1; 0;1; 0;0;0;9; 0;4; 10;0;0;7].
Example ex_dns : option_map snd (drun dns_init [DLookup [97;46;98] 5 258 env_ok; DLookup [97] 6 9 env_ok; DRx (ans 99); DTimeout true true; DRx (ans 65); DRx (ans 65); DTimeout true true]) =
  Some [(RRet 0, [Sent [1;2;1;0;0;1;0;0;0;0;0;0;1;97;1;98;0;0;1;0;1]]); (RRet (-16), []); (RNone, []); (RNone, [Sent [1;2;1;0;0;1;0;0;0;0;0;0;1;97;1;98;0;0;1;0;1]]);
        (RNone, [CallA 5 167772167]); (RNone, []); (RNone, [])].
Proof. vm_compute. reflexivity. Qed.
Example ex_dns_ok : Forall dop_ok [DLookup [97;46;98] 5 258 env_ok; DRx (ans 65)].
Proof. repeat constructor; unfold byte; lia. Qed.
