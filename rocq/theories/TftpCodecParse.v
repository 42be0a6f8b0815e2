(** Proofs about TFTP packet parsing: the option loops, file names, whole packets. *)
From Verif Require Import Base ListUtil Bits HttpUrl ForwardProofs TftpCodec TftpCodecSpec TftpCodecProofs.
Local Ltac Zify.zify_post_hook ::= idtac.

Lemma nonul_numeral s v : numeral s v -> nonul s.
Proof. intros (_ & D & _). eapply Forall_impl; [|exact D]. cbn. intros; lia. Qed.
Lemma nocase_nonul a b : nocase a b -> nonul b -> nonul a.
Proof.
  unfold nocase, nonul. revert b. induction a as [|x a IH]; intros [|y b] H N; try discriminate; [apply Forall_nil|].
  cbn [map] in H. injection H as H1 H2. inversion N; subst. apply Forall_cons; [|eapply IH; eassumption].
  intros ->. apply H3. apply lower_zero. rewrite <- H1. apply lower_zero. reflexivity.
Qed.
Lemma nocase_nonempty a b : nocase a b -> b <> [] -> a <> [].
Proof. unfold nocase. intros H N ->. destruct b; [congruence|discriminate]. Qed.
Lemma kw_nonempty k : keyword k <> [].
Proof. destruct k; discriminate. Qed.
Lemma says_strings kv k v : says kv k v -> nonul (fst kv) /\ nonul (snd kv) /\ fst kv <> [] /\ snd kv <> [].
Proof.
  intros (A & B & _). split; [eapply nocase_nonul; [exact A|apply kw_nonul]|]. split; [eapply nonul_numeral; exact B|].
  split; [eapply nocase_nonempty; [exact A|apply kw_nonempty]|]. destruct B as (B & _). exact B.
Qed.
Lemma zlen_pos_ne {A} (l : list A) : l <> [] -> 0 < zlen l.
Proof. destruct l; [congruence|]. rewrite zlen_cons. pose proof (zlen_nonneg l). lia. Qed.

Lemma next_kv_spec pre rest : exists r, next_kv (pre ++ rest) (zlen pre) = Some r /\
  match r with
  | Some (k, v, p') => exists ks vs r', rest = cstr ks ++ cstr vs ++ r' /\ nonul ks /\ nonul vs /\ ks <> [] /\ vs <> [] /\
      k = zlen pre /\ v = zlen pre + zlen ks + 1 /\ p' = zlen pre + zlen ks + 1 + zlen vs + 1
  | None => ~ exists ks vs r', rest = cstr ks ++ cstr vs ++ r' /\ nonul ks /\ nonul vs /\ ks <> [] /\ vs <> []
  end.
Proof.
  unfold next_kv, cstr. rewrite (strnlen_at pre rest) by (unfold zlen; rewrite ?app_length; lia). cbn [obind].
  pose proof (cut_spec rest) as C. destruct (cut rest) as [k o] eqn:Ec. cbn [fst]. destruct C as [Nk C].
  destruct ((zlen k =? 0) || (zlen (pre ++ rest) <=? zlen pre + zlen k)) eqn:E1.
  { eexists. split; [reflexivity|]. intros (ks & vs & r' & -> & A & B & C1 & D). rewrite <- !app_assoc in Ec. cbn [app] in Ec.
    rewrite cut_app in Ec by assumption. injection Ec as <- <-. rewrite !zlen_app in E1. pose proof (zlen_pos_ne _ C1).
    change (zlen [0]) with 1 in E1. pose proof (zlen_nonneg vs). pose proof (zlen_nonneg r'). lia. }
  destruct o as [r|]; [|subst; rewrite zlen_app in E1; lia]. subst rest.
  replace (pre ++ k ++ 0 :: r) with ((pre ++ k ++ [0]) ++ r) by (rewrite <- !app_assoc; reflexivity).
  assert (Z1 : zlen (pre ++ k ++ [0]) = zlen pre + zlen k + 1) by (rewrite !zlen_app; change (zlen [0]) with 1; lia).
  rewrite (strnlen_at (pre ++ k ++ [0]) r) by (rewrite ?zlen_app, <- ?Z1; unfold zlen; rewrite ?app_length; lia). cbn [obind].
  pose proof (cut_spec r) as C. destruct (cut r) as [v o] eqn:Er. cbn [fst]. destruct C as [Nv C].
  assert (Kn : k <> []) by (intros ->; cbn in E1; lia).
  destruct ((zlen v =? 0) || (zlen ((pre ++ k ++ [0]) ++ r) <=? zlen pre + zlen k + 1 + zlen v)) eqn:E2.
  { eexists. split; [reflexivity|]. intros (ks & vs & r' & H & A & B & C1 & D). rewrite <- !app_assoc in H. cbn [app] in H.
    pose proof (cut_app k r Nk) as X. rewrite H in X. rewrite cut_app in X by assumption. injection X as <- <-.
    rewrite cut_app in Er by assumption. injection Er as <- <-.
    rewrite zlen_app, Z1, !zlen_app, zlen_cons in E2. pose proof (zlen_pos_ne _ D). pose proof (zlen_nonneg r'). lia. }
  destruct o as [r'|]; [|subst; rewrite zlen_app, Z1 in E2; lia]. subst r.
  eexists. split; [reflexivity|]. exists k, v, r'. rewrite <- !app_assoc. cbn [app]. repeat (split; [solve [reflexivity|assumption|intros ->; cbn in E2; lia]|]). reflexivity.
Qed.

(** The option lists: every option is recognised (and allowed), in order. *)
Section Loop.
Variables (A : Type) (f : A -> okind -> Z -> A) (ok : okind -> Prop).
Inductive applied : list (list Z * list Z) -> A -> A -> Prop :=
| ap_nil q : applied [] q q
| ap_cons kv os q q' k v : says kv k v -> ok k -> applied os (f q k v) q' -> applied (kv :: os) q q'.
Lemma applied_ok os q q' : applied os q q' -> forall kv, In kv os -> exists k v, says kv k v /\ ok k.
Proof. induction 1; intros x []; [subst; eauto|auto]. Qed.
Lemma applied_total os : (forall kv, In kv os -> exists k v, says kv k v /\ ok k) -> forall q, exists q', applied os q q'.
Proof.
  induction os as [|kv os IH]; intros H q; [eexists; constructor|]. destruct (H kv (or_introl eq_refl)) as (k & v & S & O).
  destruct (IH (fun x h => H x (or_intror h)) (f q k v)) as [q' Q]. exists q'. econstructor; eassumption.
Qed.
Lemma applied_fun os q q1 q2 : applied os q q1 -> applied os q q2 -> q1 = q2.
Proof.
  intros H. revert q2. induction H; intros q2 G; inversion G; subst; [reflexivity|].
  match goal with S1 : says kv k v, S2 : says kv ?a ?b |- _ => destruct (says_kind _ _ _ _ _ S1 S2); subst end. auto.
Qed.
Lemma applied_snoc os kv q q1 k v : applied os q q1 -> says kv k v -> ok k -> applied (os ++ [kv]) q (f q1 k v).
Proof. induction 1; intros S O; cbn [app]; [econstructor; [exact S|exact O|constructor]|]. econstructor; eauto. Qed.
Lemma applied_snoc_inv os kv q q2 : applied (os ++ [kv]) q q2 -> exists q1 k v, applied os q q1 /\ says kv k v /\ ok k /\ q2 = f q1 k v.
Proof.
  revert q. induction os as [|x os IH]; cbn [app]; intros q H; inversion H; subst.
  - match goal with X : applied [] _ _ |- _ => inversion X; subst end. exists q, k, v. split; [constructor|]. auto.
  - edestruct IH as (q1 & k' & v' & A1 & B & C & D); [eassumption|]. exists q1, k', v'. split; [econstructor; eassumption|]. auto.
Qed.
End Loop.
Arguments applied {A}.

Lemma wire_cons_inj os1 : forall os2, flat_map wire os1 = flat_map wire os2 ->
  (forall kv, In kv os1 -> exists k v, says kv k v) -> (forall kv, In kv os2 -> exists k v, says kv k v) -> os1 = os2.
Proof.
  induction os1 as [|[a b] os1 IH]; intros [|[c d] os2] H P Q; try reflexivity.
  - exfalso. cbn in H. unfold wire, cstr in H. cbn in H. destruct c; discriminate.
  - exfalso. cbn in H. unfold wire, cstr in H. cbn in H. destruct a; discriminate.
  - destruct (P _ (or_introl eq_refl)) as (? & ? & S1). destruct (Q _ (or_introl eq_refl)) as (? & ? & S2).
    apply says_strings in S1. apply says_strings in S2. cbn [fst snd] in *. destruct S1 as (A1 & A2 & _). destruct S2 as (B1 & B2 & _).
    cbn [flat_map] in H. unfold wire at 1 3, cstr in H. cbn [fst snd] in H. rewrite <- !app_assoc in H. cbn [app] in H.
    pose proof (cut_app a (b ++ 0 :: flat_map wire os1) A1) as X. rewrite H in X. rewrite cut_app in X by assumption. injection X as -> X.
    pose proof (cut_app b (flat_map wire os1) A2) as Y. rewrite <- X in Y. rewrite cut_app in Y by assumption. injection Y as -> Y.
    rewrite (IH os2); [reflexivity|congruence| |]; intros; [apply P|apply Q]; right; assumption.
Qed.

Section Loops.
Variables (A : Type) (f : A -> okind -> Z -> A) (ok : okind -> Prop).
Variable step : list Z -> Z -> Z -> A -> option (A + Z).
Hypothesis step_spec : forall pre k v r q, nonul k -> nonul v -> Forall byte v ->
  exists s, step (pre ++ k ++ 0 :: v ++ 0 :: r) (zlen pre) (zlen pre + zlen k + 1) q = Some s /\ outcome s (f q) ok (k, v).
Variable loop : nat -> list Z -> Z -> A -> option (A + Z).
Hypothesis loop_eq : forall fuel buf p q, loop fuel buf p q =
  if zlen buf <=? p then Some (inl q) else
  match fuel with
  | O => None
  | S n => do kv <- next_kv buf p;
    match kv with
    | None => Some (inr ERR_PACKET)
    | Some (key, value, p') => do r <- step buf key value q; match r with inr e => Some (inr e) | inl q => loop n buf p' q end
    end
  end.
Lemma loop_spec : forall fuel rest pre q, Forall byte rest -> (length rest <= fuel)%nat ->
  exists s, loop fuel (pre ++ rest) (zlen pre) q = Some s /\
    match s with
    | inl q' => exists os, rest = flat_map wire os /\ applied f ok os q q'
    | inr e => (e = ERR_PACKET \/ e = ERR_UNSUPPORTED) /\ ~ exists os, rest = flat_map wire os /\ (forall kv, In kv os -> exists k v, says kv k v /\ ok k)
    end.
Proof.
  induction fuel as [|fuel IH]; intros rest pre q Hb Hf; rewrite loop_eq.
  - destruct rest; [|cbn in Hf; lia]. rewrite app_nil_r, Z.leb_refl. eexists. split; [reflexivity|]. exists []. split; [reflexivity|constructor].
  - destruct (Z.leb_spec (zlen (pre ++ rest)) (zlen pre)) as [L|L].
    { rewrite zlen_app in L. assert (rest = []) as -> by (apply zlen_zero; pose proof (zlen_nonneg rest); lia).
      eexists. split; [reflexivity|]. exists []. split; [reflexivity|constructor]. }
    destruct (next_kv_spec pre rest) as (r & E & R). rewrite E. cbn [obind]. destruct r as [[[kp vp] p']|].
    2:{ eexists. split; [reflexivity|]. split; [left; reflexivity|]. intros (os & -> & P). apply R. destruct os as [|kv os]; [cbn in L; rewrite app_nil_r in L; lia|].
        destruct (P kv (or_introl eq_refl)) as (k & v & S & _). apply says_strings in S. exists (fst kv), (snd kv), (flat_map wire os).
        cbn [flat_map]. unfold wire at 1. rewrite <- app_assoc. tauto. }
    destruct R as (ks & vs & r' & -> & N1 & N2 & M1 & M2 & -> & -> & ->). unfold cstr in *.
    assert (L2 : (pre ++ (ks ++ [0]) ++ (vs ++ [0]) ++ r') = pre ++ ks ++ 0 :: vs ++ 0 :: r') by (rewrite <- !app_assoc; reflexivity).
    rewrite L2. apply Forall_app in Hb. destruct Hb as [Hb1 Hb]. apply Forall_app in Hb. destruct Hb as [Hb2 Hb3]. apply Forall_app in Hb2. destruct Hb2 as [Hb2 _].
    destruct (step_spec pre ks vs r' q N1 N2 Hb2) as (s & Es & O). rewrite Es. cbn [obind]. destruct s as [q1|e].
    + destruct O as (k & v & S & O & ->). destruct (IH r' (pre ++ ks ++ 0 :: vs ++ [0]) (f q k v) Hb3) as (s & E3 & R3); [rewrite !app_length in Hf; cbn in Hf; lia|].
      rewrite <- !app_assoc in E3. cbn [app] in E3. rewrite <- app_assoc in E3. cbn [app] in E3.
      replace (zlen (pre ++ ks ++ 0 :: vs ++ [0])) with (zlen pre + zlen ks + 1 + zlen vs + 1) in E3 by (rewrite !zlen_app, zlen_cons, zlen_app; change (zlen [0]) with 1; lia).
      rewrite E3. eexists. split; [reflexivity|]. destruct s as [q'|e].
      * destruct R3 as (os & -> & A3). exists ((ks, vs) :: os). split; [cbn [flat_map]; unfold wire at 2; cbn [fst snd]; unfold cstr; rewrite <- !app_assoc; reflexivity|].
        econstructor; eassumption.
      * destruct R3 as (Q & R3). split; [exact Q|]. intros (os & W & P). apply R3. destruct os as [|kv os]; [cbn in W; destruct ks; discriminate|].
        destruct (P kv (or_introl eq_refl)) as (k1 & v1 & S1 & _). apply says_strings in S1. destruct S1 as (T1 & T2 & _). cbn [flat_map] in W. unfold wire at 1, cstr in W. rewrite <- !app_assoc in W. cbn [app] in W.
        pose proof (cut_app ks (vs ++ 0 :: r') N1) as X. rewrite W in X. rewrite cut_app in X by assumption. injection X as X1 X.
        pose proof (cut_app vs r' N2) as Y. rewrite <- X in Y. rewrite cut_app in Y by assumption. injection Y as Y1 Y. exists os. split; [congruence|]. intros; apply P; right; assumption.
    + destruct O as (-> & O). eexists. split; [reflexivity|]. split; [right; reflexivity|]. intros (os & W & P). apply O. destruct os as [|kv os]; [cbn in W; destruct ks; discriminate|].
      destruct (P kv (or_introl eq_refl)) as (k1 & v1 & S1 & O1). pose proof (says_strings _ _ _ S1) as (T1 & T2 & _). cbn [flat_map] in W. unfold wire at 1, cstr in W. rewrite <- !app_assoc in W. cbn [app] in W.
      pose proof (cut_app ks (vs ++ 0 :: r') N1) as X. rewrite W in X. rewrite cut_app in X by assumption. injection X as X1 X.
      pose proof (cut_app vs r' N2) as Y. rewrite <- X in Y. rewrite cut_app in Y by assumption. injection Y as Y1 Y. exists k1, v1. destruct kv; cbn in *; subst; tauto.
Qed.
End Loops.

Lemma req_options_spec fuel rest pre q : Forall byte rest -> (length rest <= fuel)%nat ->
  exists s, req_options fuel (pre ++ rest) (zlen pre) q = Some s /\
    match s with
    | inl q' => exists os, rest = flat_map wire os /\ applied upd (fun _ => True) os q q'
    | inr e => (e = ERR_PACKET \/ e = ERR_UNSUPPORTED) /\ ~ exists os, rest = flat_map wire os /\ (forall kv, In kv os -> exists k v, says kv k v /\ True)
    end.
Proof.
  intros Hb Hf. apply (loop_spec _ _ _ req_option); auto.
  - intros. apply req_option_spec; assumption.
  - intros [|n] b p q0; reflexivity.
Qed.
Lemma oack_options_spec fuel rest pre req g : Forall byte rest -> (length rest <= fuel)%nat ->
  exists s, oack_options fuel (pre ++ rest) (zlen pre) req g = Some s /\
    match s with
    | inl g' => exists os, rest = flat_map wire os /\ applied updn (asked req) os g g'
    | inr e => (e = ERR_PACKET \/ e = ERR_UNSUPPORTED) /\ ~ exists os, rest = flat_map wire os /\ (forall kv, In kv os -> exists k v, says kv k v /\ asked req k)
    end.
Proof.
  intros Hb Hf. apply (loop_spec _ _ _ (fun b k v g => oack_option b k v req g) ) with (loop := fun n b p g => oack_options n b p req g); auto.
  - intros. apply oack_option_spec; assumption.
  - intros [|n] b p q0; reflexivity.
Qed.

(** ** File names *)
Definition sepb (c : Z) : bool := (c =? 47) || (c =? 92).
Lemma sepb_spec c : sepb c = true <-> sep c.
Proof. unfold sepb, sep. lia. Qed.
Definition ddb (l : list Z) : bool := match l with [a; b] => (a =? 46) && (b =? 46) | _ => false end.
Lemma ddb_spec l : ddb l = true <-> l = [46; 46].
Proof.
  destruct l as [|a [|b [|c l]]]; cbn; try (split; discriminate). split; [intros H|intros [= -> ->]; reflexivity].
  assert (a = 46 /\ b = 46) as [-> ->] by lia. reflexivity.
Qed.
Fixpoint segs (comp rest : list Z) : bool :=
  match rest with
  | [] => negb (ddb comp)
  | c :: r => if sepb c then negb (ddb comp) && segs [] r else segs (comp ++ [c]) r
  end.
Lemma has_colon_spec : forall name pre fuel, nonul name -> (length name < fuel)%nat ->
  exists b, has_colon fuel (pre ++ name ++ [0]) (zlen pre) = Some b /\ (b = true <-> In 58 name).
Proof.
  induction name as [|c name IH]; intros pre fuel N L; (destruct fuel as [|fuel]; [cbn in L; lia|]); cbn [has_colon app]; rewrite rd1_at; cbn [obind].
  - eexists. split; [reflexivity|]. cbn. split; [discriminate|tauto].
  - inversion N; subst. destruct (Z.eqb_spec c 0); [tauto|]. destruct (Z.eqb_spec c 58).
    + eexists. split; [reflexivity|]. subst. cbn. tauto.
    + destruct (IH (pre ++ [c]) fuel) as (b & E & F); [assumption|cbn in L; lia|]. rewrite <- app_assoc, zlen_app in E. cbn [app] in E. change (zlen [c]) with 1 in E.
      exists b. split; [exact E|]. rewrite F. cbn. split; [tauto|]. intros [X|X]; [congruence|assumption].
Qed.
Lemma seg_scan_spec : forall rest pre comp fuel, nonul rest -> (length rest < fuel)%nat ->
  seg_scan fuel (pre ++ comp ++ rest ++ [0]) (zlen pre + zlen comp) (zlen pre) = Some (segs comp rest).
Proof.
  assert (DD : forall pre comp x r, (if zlen pre + zlen comp - zlen pre =? 2 then do a <- rd1 (pre ++ comp ++ x :: r) (zlen pre); do b <- rd1 (pre ++ comp ++ x :: r) (zlen pre + 1); Some ((a =? 46) && (b =? 46)) else Some false) = Some (ddb comp)).
  { intros pre comp x r. destruct (Z.eqb_spec (zlen pre + zlen comp - zlen pre) 2) as [E|E].
    - destruct comp as [|a [|b [|c comp]]]; cbn [app]; rewrite ?zlen_cons in E; try (change (zlen (@nil Z)) with 0 in E; lia); [|pose proof (zlen_nonneg comp); lia].
      rewrite rd1_at. cbn [obind]. replace (pre ++ a :: b :: x :: r) with ((pre ++ [a]) ++ b :: x :: r) by (rewrite <- app_assoc; reflexivity).
      replace (zlen pre + 1) with (zlen (pre ++ [a])) by (rewrite zlen_app; reflexivity). rewrite rd1_at. reflexivity.
    - destruct comp as [|a [|b [|c comp]]]; try reflexivity. exfalso. apply E. rewrite !zlen_cons. change (zlen (@nil Z)) with 0. lia. }
  assert (RD : forall pre comp x r, rd1 (pre ++ comp ++ x :: r) (zlen pre + zlen comp) = Some x).
  { intros. rewrite app_assoc, <- zlen_app. apply rd1_at. }
  induction rest as [|c r IH]; intros pre comp fuel N L; (destruct fuel as [|fuel]; [cbn in L; lia|]); cbn [seg_scan app]; rewrite RD; cbn [obind].
  - change ((0 =? 47) || (0 =? 92) || (0 =? 0)) with true. cbv iota. rewrite DD. cbn [obind segs]. change (0 =? 0) with true. destruct (ddb comp); reflexivity.
  - inversion N; subst. cbn [segs]. unfold sepb. destruct (Z.eqb_spec c 0); [tauto|]. rewrite orb_false_r. destruct ((c =? 47) || (c =? 92)) eqn:E.
    + rewrite DD. cbn [obind]. destruct (ddb comp); [reflexivity|]. cbn [negb andb].
      specialize (IH (pre ++ comp ++ [c]) [] fuel H2 ltac:(cbn in L; lia)). cbn [app] in IH. rewrite <- !app_assoc in IH. cbn [app] in IH.
      replace (zlen (pre ++ comp ++ [c]) + zlen []) with (zlen pre + zlen comp + 1) in IH by (rewrite !zlen_app; change (zlen [c]) with 1; change (zlen (@nil Z)) with 0; lia).
      replace (zlen (pre ++ comp ++ [c])) with (zlen pre + zlen comp + 1) in IH by (rewrite !zlen_app; change (zlen [c]) with 1; lia). exact IH.
    + specialize (IH pre (comp ++ [c]) fuel H2 ltac:(cbn in L; lia)). rewrite <- !app_assoc in IH. cbn [app] in IH.
      replace (zlen pre + zlen (comp ++ [c])) with (zlen pre + zlen comp + 1) in IH by (rewrite !zlen_app; change (zlen [c]) with 1; lia). exact IH.
Qed.
Lemma first_sep comp c r a : (forall x, In x comp -> ~ sep x) -> sep c -> forall b, comp ++ c :: r = a ++ b ->
  (exists d, comp = a ++ d /\ b = d ++ c :: r) \/ (exists d, a = comp ++ c :: d /\ r = d ++ b).
Proof.
  revert a. induction comp as [|x comp IH]; intros a N S b E; cbn [app] in E.
  - destruct a as [|y a]; cbn [app] in E; [left; exists []; auto|]. injection E as <- ->. right. exists a. auto.
  - destruct a as [|y a]; cbn [app] in E; [left; exists (x :: comp); split; [reflexivity|auto]|]. injection E as <- E.
    destruct (IH a (fun z h => N z (or_intror h)) S b E) as [(d & -> & ->)|(d & -> & ->)]; [left|right]; exists d; auto.
Qed.
Lemma segs_spec : forall rest comp, (forall x, In x comp -> ~ sep x) -> (segs comp rest = true <-> ~ has_dotdot (comp ++ rest)).
Proof.
  assert (Last : forall (comp a b : list Z), (forall x, In x comp -> ~ sep x) -> comp = a ++ [46; 46] ++ b ->
     (a = [] \/ exists a' x, a = a' ++ [x] /\ sep x) -> (b = [] \/ exists y b', b = y :: b' /\ sep y) -> comp = [46; 46]).
  { intros comp a b N -> [->|(a' & x & -> & S)] [->|(y & b' & -> & S')]; [reflexivity|..]; exfalso;
      solve [apply (N x); [rewrite <- !app_assoc; apply in_or_app; right; left; reflexivity|assumption]|apply (N y); [apply in_or_app; right; right; right; left; reflexivity|assumption]]. }
  induction rest as [|c r IH]; intros comp N; cbn [segs].
  - rewrite app_nil_r. split.
    + intros H (a & b & E & X & Y). rewrite (Last comp a b N E X Y) in H. discriminate.
    + intros H. destruct (ddb comp) eqn:D; [|reflexivity]. exfalso. apply H. apply ddb_spec in D. subst. exists [], []. auto.
  - destruct (sepb c) eqn:Sc.
    + apply sepb_spec in Sc. rewrite andb_true_iff, (IH [] ltac:(intros ? [])). cbn [app]. split.
      * intros [D H] (a & b & E & X & Y). destruct (first_sep comp c r a N Sc _ E) as [(d & -> & Eb)|(d & -> & ->)].
        -- destruct X as [->|(a' & x & -> & S)]; [|exfalso; apply (N x); [apply in_or_app; left; apply in_or_app; right; left; reflexivity|assumption]].
           cbn [app] in *. destruct d as [|d1 [|d2 [|d3 d]]]; cbn [app] in Eb; injection Eb; intros; subst.
           ++ destruct Sc; discriminate.
           ++ destruct Sc; discriminate.
           ++ discriminate.
           ++ destruct Y as [Y|(y & b' & Y & S)]; [discriminate|]. injection Y as ? ?; subst. apply (N y); [right; right; left; reflexivity|assumption].
        -- apply H. exists d, b. split; [reflexivity|]. split; [|exact Y]. destruct X as [X|(a' & x & X & S)]; [destruct comp; discriminate|].
           destruct d as [|z d _] using rev_ind; [left; reflexivity|]. right. exists d, z. split; [reflexivity|].
           change (comp ++ c :: d ++ [z]) with (comp ++ (c :: d) ++ [z]) in X. rewrite app_assoc in X. apply app_inj_tail in X. destruct X; subst; assumption.
      * intros H. split.
        -- destruct (ddb comp) eqn:D; [|reflexivity]. exfalso. apply H. apply ddb_spec in D. subst. exists [], (c :: r). split; [reflexivity|]. split; [auto|]. right. exists c, r. auto.
        -- intros (a & b & -> & X & Y). apply H. exists (comp ++ c :: a), b. split; [rewrite <- app_assoc; reflexivity|]. split; [|exact Y]. right.
           destruct X as [->|(a' & x & -> & S)]; [exists comp, c; auto|]. exists (comp ++ c :: a'), x. split; [rewrite <- app_assoc; reflexivity|assumption].
    + rewrite IH.
      * rewrite <- app_assoc. cbn [app]. tauto.
      * intros x Hx. apply in_app_or in Hx. destruct Hx as [Hx|[<-|[]]]; [apply N; assumption|]. intros S. apply sepb_spec in S. congruence.
Qed.
Lemma filename_is_safe_spec name : nonul name -> name <> [] ->
  exists b, filename_is_safe (name ++ [0]) = Some b /\ (b = true <-> confined name).
Proof.
  intros N Ne. unfold filename_is_safe, confined. destruct name as [|c name]; [congruence|]. pose proof (rd1_at [] (name ++ [0]) c) as R. cbn [app] in *. change (zlen []) with 0 in R. rewrite R. cbn [obind].
  pose proof N as N'. inversion N; subst. destruct (Z.eqb_spec c 0); [tauto|].
  destruct ((c =? 47) || (c =? 92)) eqn:E.
  { eexists. split; [reflexivity|]. split; [discriminate|]. intros (_ & H & _). exfalso. apply (H c eq_refl). apply sepb_spec. exact E. }
  assert (Hs : forall c0 : Z, hd_error (c :: name) = Some c0 -> ~ sep c0) by (intros z [= <-] S; apply sepb_spec in S; unfold sepb in S; congruence).
  destruct (has_colon_spec (c :: name) [] (S (length (c :: name ++ [0]))) N') as (b & E1 & F); [cbn; rewrite app_length; lia|]. cbn [app] in E1. change (zlen []) with 0 in E1. rewrite E1. cbn [obind].
  destruct b.
  { eexists. split; [reflexivity|]. split; [discriminate|]. intros (_ & _ & H & _). exfalso. apply H. apply F. reflexivity. }
  pose proof (seg_scan_spec (c :: name) [] [] (S (length (c :: name ++ [0]))) N') as S2. cbn [app] in S2. change (zlen [] + zlen []) with 0 in S2. change (zlen []) with 0 in S2.
  rewrite S2 by (cbn; rewrite app_length; lia). eexists. split; [reflexivity|]. rewrite (segs_spec (c :: name) []) by (intros ? []). cbn [app].
  assert (~ In 58 (c :: name)) by (intros X; apply F in X; discriminate). tauto.
Qed.
