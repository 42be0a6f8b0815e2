(** wolfGuard device: what holds of the keys and counters in every trace. *)
From Verif Require Import Base ReplaySpec Arp WgAllowedIps WgCounter EspReplayProps WgCounterProps WgDevice WgDeviceInv WgDeviceRun.

(** ** Reading a trace *)
(** The sending keys and receiving keys of the sessions, in order. *)
Definition skeys (tr : list ev) : list (list Z) := flat_map (fun e => match e with ENew _ sk _ _ => [sk] | _ => [] end) tr.
Definition rkeys (tr : list ev) : list (list Z) := flat_map (fun e => match e with ENew _ _ rk _ => [rk] | _ => [] end) tr.
(** (key, counter) of the transport messages encrypted, and of those accepted. *)
Definition nonces (tr : list ev) : list (list Z * Z) := flat_map (fun e => match e with EEnc _ sk c _ _ => [(sk, c)] | _ => [] end) tr.
Definition accepts (tr : list ev) : list (list Z * Z) := flat_map (fun e => match e with EAcc _ rk c _ _ => [(rk, c)] | _ => [] end) tr.

Definition keq (a b : list Z) : {a = b} + {a <> b} := list_eq_dec Z.eq_dec a b.
Definition accs_of (rk : list Z) (tr : list ev) : list Z :=
  flat_map (fun e => match e with EAcc _ k c _ _ => if keq k rk then [c] else [] | _ => [] end) tr.

Lemma accs_of_in rk c tr : In c (accs_of rk tr) <-> In (rk, c) (accepts tr).
Proof.
  unfold accs_of, accepts. rewrite !in_flat_map. split; intros (e & I & H); exists e; (split; [exact I|]); destruct e; try destruct H.
  - destruct (keq rk0 rk) as [->|]; [|destruct H]. destruct H as [<-|[]]. left; reflexivity.
  - injection H as -> ->. destruct (keq rk rk); [left; reflexivity|contradiction].
  - contradiction.
Qed.
Lemma accs_of_app rk a b : accs_of rk (a ++ b) = accs_of rk a ++ accs_of rk b.
Proof. apply flat_map_app. Qed.

(** A session that made [e] possible happened before it. *)
Definition justified (a : list ev) (e : ev) : Prop :=
  match e with
  | EEnc i sk c pt t => exists rk t0, In (ENew i sk rk t0) a /\ t0 <= t < t0 + 180000 /\
      0 <= c < 2 ^ 64 - 1026 /\ (pt <> [] -> c < 2 ^ 60)
  | EAcc i rk c pt t => exists sk t0, In (ENew i sk rk t0) a /\ t0 <= t < t0 + 180000 /\ 0 <= c < 2 ^ 64 - 1026
  | _ => True
  end.
Definition all_justified (tr : list ev) : Prop := forall a e b, tr = a ++ e :: b -> justified a e.

Lemma split_last {A} (l a b : list A) x y : l ++ [x] = a ++ y :: b -> (b = [] /\ a = l /\ y = x) \/ exists b', b = b' ++ [x] /\ l = a ++ y :: b'.
Proof.
  destruct b as [|z b] using rev_ind; intros E.
  - left. apply app_inj_tail in E. destruct E as (-> & ->). auto.
  - right. clear IHb. exists b. rewrite app_comm_cons, app_assoc in E. apply app_inj_tail in E. destruct E as (-> & ->). auto.
Qed.
Lemma justified_snoc tr e : all_justified tr -> justified tr e -> all_justified (tr ++ [e]).
Proof.
  intros H J a x b E. apply split_last in E. destruct E as [(-> & -> & ->)|(b' & -> & E)]; [exact J|]. exact (H _ _ _ E).
Qed.

Definition live (k : kp) : Prop := k_svalid k = true \/ k_rvalid k = true.

Record KI (V : dview) (tr : list ev) (now : Z) : Prop := {
  ki_live : forall i s, live (V i s) -> In (ENew (Z.of_nat i) (k_skey (V i s)) (k_rkey (V i s)) (k_sbirth (V i s))) tr /\
            k_rbirth (V i s) = k_sbirth (V i s) /\ 0 <= k_sbirth (V i s) <= now;
  ki_ctr : forall i s, k_svalid (V i s) = true -> 0 <= k_sctr (V i s);
  ki_used : forall i s, k_svalid (V i s) = true -> forall c, In (k_skey (V i s), c) (nonces tr) -> c < k_sctr (V i s);
  ki_rx : forall i s, k_rvalid (V i s) = true -> WInv (k_rx (V i s)) (accs_of (k_rkey (V i s)) tr);
  ki_one : forall i s j t, live (V i s) -> live (V j t) -> (i, s) <> (j, t) ->
           k_skey (V i s) <> k_skey (V j t) /\ k_rkey (V i s) <> k_rkey (V j t);
  ki_nonce : NoDup (nonces tr);
  ki_acc : NoDup (accepts tr);
  ki_key : forall k c, In (k, c) (nonces tr) -> In k (skeys tr);
  ki_rkey : forall k c, In (k, c) (accepts tr) -> In k (rkeys tr);
  ki_just : all_justified tr
}.

Lemma KI_ext V V' tr now : (forall i s, V' i s = V i s) -> KI V tr now -> KI V' tr now.
Proof.
  intros E []. constructor; try assumption.
  - intros i s. rewrite E. apply ki_live0.
  - intros i s. rewrite E. apply ki_ctr0.
  - intros i s. rewrite E. apply ki_used0.
  - intros i s. rewrite E. apply ki_rx0.
  - intros i s j t. rewrite !E. apply ki_one0.
Qed.
Lemma KI_time V tr now now' : now <= now' -> KI V tr now -> KI V tr now'.
Proof. intros L []. constructor; try assumption. intros i s H. destruct (ki_live0 i s H) as (A & B & D). split; [exact A|]. split; [exact B|]. lia. Qed.

Lemma nodup_snoc {A} (l : list A) x : NoDup (l ++ [x]) -> NoDup l /\ ~ In x l.
Proof.
  intros H. apply NoDup_remove in H. rewrite app_nil_r in H. exact H.
Qed.
Lemma nodup_snoc' {A} (l : list A) x : NoDup l -> ~ In x l -> NoDup (l ++ [x]).
Proof.
  intros H N. apply NoDup_rev in H. rewrite <- (rev_involutive (l ++ [x])), rev_app_distr. apply NoDup_rev. cbn. constructor; [|exact H].
  rewrite <- in_rev. exact N.
Qed.

Lemma new_skey i sk rk t tr : In (ENew i sk rk t) tr -> In sk (skeys tr) /\ In rk (rkeys tr).
Proof. intros H. split; apply in_flat_map; eexists; (split; [exact H|]); left; reflexivity. Qed.

(** The slots other than the changed one, when the trace grows by an event that
    is not a message under their keys. *)
Lemma reject_val : WG_REJECT_AFTER_MESSAGES = 2 ^ 64 - 1026.
Proof. reflexivity. Qed.

Lemma pair_dec (i s j t : nat) : {(i, s) = (j, t)} + {(i, s) <> (j, t)}.
Proof. destruct (Nat.eq_dec i j), (Nat.eq_dec s t); subst; (left; reflexivity) || (right; congruence). Qed.

Lemma in_snoc {A} (x : A) l y : In x (l ++ [y]) <-> In x l \/ x = y.
Proof. rewrite in_app_iff. cbn. split; intros [H|H]; auto. destruct H as [H|[]]; auto. Qed.

Lemma KI_quiet_slot V V1 tr now i s k' : KI V tr now -> upd1 (V i) (V1 i) s k' -> (forall j, j <> i -> forall t, V1 j t = V j t) ->
  (k_svalid k' = true -> k_svalid (V i s) = true /\ k_skey k' = k_skey (V i s) /\ k_sctr k' = k_sctr (V i s)) ->
  (k_rvalid k' = true -> k_rvalid (V i s) = true /\ k_rkey k' = k_rkey (V i s) /\ WInv (k_rx k') (accs_of (k_rkey (V i s)) tr)) ->
  (live k' -> k_skey k' = k_skey (V i s) /\ k_rkey k' = k_rkey (V i s) /\ k_sbirth k' = k_sbirth (V i s) /\ k_rbirth k' = k_rbirth (V i s)) ->
  KI V1 tr now.
Proof.
  intros [] (U1 & U2) UO HS HR HL.
  assert (CASE : forall j t, (j = i /\ t = s /\ V1 j t = k') \/ ((j, t) <> (i, s) /\ V1 j t = V j t)).
  { intros j t. destruct (pair_dec j t i s) as [E|N]; [injection E as -> ->; left; auto|right]. split; [exact N|].
    destruct (Nat.eq_dec j i) as [->|NJ]; [apply U2; congruence|apply UO, NJ]. }
  assert (LV : live k' -> live (V i s)). { intros [H|H]; [left; apply HS, H|right; apply HR, H]. }
  constructor; try assumption.
  - intros j t. destruct (CASE j t) as [(-> & -> & ->)|(N & ->)]; [|apply ki_live0].
    intros H. destruct (HL H) as (A1 & A2 & A3 & A4). rewrite A1, A2, A3, A4. apply ki_live0, LV, H.
  - intros j t. destruct (CASE j t) as [(-> & -> & ->)|(N & ->)]; [|apply ki_ctr0]. intros H. destruct (HS H) as (A & _ & B). rewrite B. apply ki_ctr0, A.
  - intros j t. destruct (CASE j t) as [(-> & -> & ->)|(N & ->)]; [|apply ki_used0]. intros H. destruct (HS H) as (A & B & D). rewrite B, D. apply ki_used0, A.
  - intros j t. destruct (CASE j t) as [(-> & -> & ->)|(N & ->)]; [|apply ki_rx0]. intros H. destruct (HR H) as (A & B & D). rewrite B. exact D.
  - intros j t j' t'. destruct (CASE j t) as [(-> & -> & ->)|(N & ->)], (CASE j' t') as [(-> & -> & ->)|(N' & ->)].
    + congruence.
    + intros H1 H2 _. destruct (HL H1) as (A1 & A2 & _). rewrite A1, A2. apply ki_one0; [apply LV, H1|exact H2|congruence].
    + intros H1 H2 _. destruct (HL H2) as (A1 & A2 & _). rewrite A1, A2. apply ki_one0; [exact H1|apply LV, H2|congruence].
    + apply ki_one0.
Qed.

(** Events that carry no key. *)
Lemma KI_neutral V tr now e : neutral e -> KI V tr now -> KI V (tr ++ [e]) now.
Proof.
  intros N K. destruct K.
  assert (E1 : nonces (tr ++ [e]) = nonces tr) by (unfold nonces; rewrite flat_map_app; destruct e; try destruct N; cbn; apply app_nil_r).
  assert (E2 : accepts (tr ++ [e]) = accepts tr) by (unfold accepts; rewrite flat_map_app; destruct e; try destruct N; cbn; apply app_nil_r).
  assert (E3 : skeys (tr ++ [e]) = skeys tr) by (unfold skeys; rewrite flat_map_app; destruct e; try destruct N; cbn; apply app_nil_r).
  assert (E4 : rkeys (tr ++ [e]) = rkeys tr) by (unfold rkeys; rewrite flat_map_app; destruct e; try destruct N; cbn; apply app_nil_r).
  assert (E5 : forall k, accs_of k (tr ++ [e]) = accs_of k tr) by (intros k; rewrite accs_of_app; destruct e; try destruct N; cbn; apply app_nil_r).
  constructor; rewrite ?E1, ?E2, ?E3, ?E4; try assumption.
  - intros i s H. destruct (ki_live0 i s H) as (A & B). split; [apply in_or_app; left; exact A|exact B].
  - intros i s H. rewrite E5. apply ki_rx0, H.
  - apply justified_snoc; [assumption|]. destruct e; try destruct N; exact I.
Qed.

Lemma kstep_KI V V1 tr now i e : KI V tr now -> 0 <= now < 2 ^ 64 ->
  kstep (Z.of_nat i) now (V i) e (V1 i) -> (forall j, j <> i -> forall s, V1 j s = V j s) ->
  NoDup (skeys (tr ++ e)) -> NoDup (rkeys (tr ++ e)) -> KI V1 (tr ++ e) now.
Proof.
  intros K HN KS UO ND1 ND2. remember (V i) as v eqn:Ev. remember (V1 i) as v1 eqn:Ev1.
  destruct KS as [v v' s pt SV LT LP AGE U|v v' s U|v v' s U|v v' s sk rk li ri ini U|v v' s c RV CR VD U|v v' s c pt RV CR AGE VD U|v v' e NE U]; subst v v';
  try rewrite app_nil_r.
  - (* a message is encrypted *)
    destruct (ki_live _ _ _ K i s (or_introl SV)) as (L1 & L2 & L3). pose proof (ki_ctr _ _ _ K i s SV) as C0.
    assert (EU : u64 (k_sctr (V i s) + 1) = k_sctr (V i s) + 1) by (unfold u64; rewrite reject_val in LT; apply Z.mod_small; lia).
    assert (EA : u64 (now - k_sbirth (V i s)) = now - k_sbirth (V i s)) by (unfold u64; apply Z.mod_small; lia).
    rewrite EA in AGE. rewrite EU in U. unfold REJECT_AFTER_MS in AGE.
    destruct U as (U1 & U2).
    assert (CASE : forall j t, (j = i /\ t = s /\ V1 j t = kp_ctr (V i s) (k_sctr (V i s) + 1)) \/ ((j, t) <> (i, s) /\ V1 j t = V j t)).
    { intros j t. destruct (pair_dec j t i s) as [E|N]; [injection E as -> ->; left; auto|right]. split; [exact N|].
      destruct (Nat.eq_dec j i) as [->|NJ]; [apply U2; congruence|apply UO, NJ]. }
    set (ev := EEnc _ _ _ _ _) in *.
    assert (E1 : nonces (tr ++ [ev]) = nonces tr ++ [(k_skey (V i s), k_sctr (V i s))]) by (unfold nonces; rewrite flat_map_app; reflexivity).
    assert (E2 : accepts (tr ++ [ev]) = accepts tr) by (unfold accepts; rewrite flat_map_app; apply app_nil_r).
    assert (E3 : skeys (tr ++ [ev]) = skeys tr) by (unfold skeys; rewrite flat_map_app; apply app_nil_r).
    assert (E4 : rkeys (tr ++ [ev]) = rkeys tr) by (unfold rkeys; rewrite flat_map_app; apply app_nil_r).
    assert (E5 : forall k, accs_of k (tr ++ [ev]) = accs_of k tr) by (intros k; rewrite accs_of_app; apply app_nil_r).
    destruct K. constructor; rewrite ?E1, ?E2, ?E3, ?E4; try assumption.
    + intros j t. destruct (CASE j t) as [(-> & -> & ->)|(N & ->)]; intros H.
      * cbn [kp_ctr k_skey k_rkey k_sbirth k_rbirth]. split; [apply in_or_app; left; exact L1|]. split; assumption.
      * destruct (ki_live0 j t H) as (A & B). split; [apply in_or_app; left; exact A|exact B].
    + intros j t. destruct (CASE j t) as [(-> & -> & ->)|(N & ->)]; [|apply ki_ctr0]. intros _. cbn. lia.
    + intros j t. destruct (CASE j t) as [(-> & -> & ->)|(N & ->)]; intros H c IC; apply in_snoc in IC.
      * cbn [kp_ctr k_skey k_sctr] in *. destruct IC as [IC|IC]; [pose proof (ki_used0 i s SV c IC); lia|]. injection IC as ->. lia.
      * destruct IC as [IC|IC]; [exact (ki_used0 j t H c IC)|]. exfalso. injection IC as IK _.
        destruct (ki_one0 j t i s (or_introl H) (or_introl SV) N) as (NK & _). exact (NK IK).
    + intros j t H. rewrite E5. destruct (CASE j t) as [(-> & -> & E)|(N & E)]; rewrite E in *; [cbn in *; apply ki_rx0, H|apply ki_rx0, H].
    + intros j t j' t'. destruct (CASE j t) as [(-> & -> & ->)|(N & ->)], (CASE j' t') as [(-> & -> & ->)|(N' & ->)]; intros H1 H2 NE.
      * congruence.
      * cbn [kp_ctr k_skey k_rkey]. apply ki_one0; [exact H1|exact H2|congruence].
      * cbn [kp_ctr k_skey k_rkey]. apply ki_one0; [exact H1|exact H2|congruence].
      * apply ki_one0; assumption.
    + apply nodup_snoc'; [assumption|]. intros IN. pose proof (ki_used0 i s SV _ IN). lia.
    + intros k c IC. apply in_snoc in IC. destruct IC as [IC|IC]; [exact (ki_key0 k c IC)|]. injection IC as -> ->. eapply new_skey, L1.
    + apply justified_snoc; [assumption|]. cbn. exists (k_rkey (V i s)), (k_sbirth (V i s)). split; [exact L1|].
      split; [lia|]. rewrite reject_val in LT. split; [lia|]. intros NP. specialize (LP NP). unfold REKEY_AFTER_MESSAGES in LP. lia.
  - eapply KI_quiet_slot; [exact K|exact U|exact UO| | |]; cbn [kp_inv k_svalid k_rvalid k_skey k_rkey k_sctr k_rx k_sbirth k_rbirth]; try tauto; try discriminate.
    intros H. split; [exact H|]. split; [reflexivity|]. apply (ki_rx _ _ _ K), H.
  - eapply KI_quiet_slot; [exact K|exact U|exact UO| | |]; cbn [kp_zero k_svalid k_rvalid]; try discriminate. intros [H|H]; discriminate.
  - (* a new session *)
    destruct U as (U1 & U2). set (nk := mkKp _ _ _ _ _ _ _ _ _ _ _) in *. set (ev := ENew _ _ _ _) in *.
    assert (CASE : forall j t, (j = i /\ t = s /\ V1 j t = nk) \/ ((j, t) <> (i, s) /\ V1 j t = V j t)).
    { intros j t. destruct (pair_dec j t i s) as [E|N]; [injection E as -> ->; left; auto|right]. split; [exact N|].
      destruct (Nat.eq_dec j i) as [->|NJ]; [apply U2; congruence|apply UO, NJ]. }
    assert (E1 : nonces (tr ++ [ev]) = nonces tr) by (unfold nonces; rewrite flat_map_app; apply app_nil_r).
    assert (E2 : accepts (tr ++ [ev]) = accepts tr) by (unfold accepts; rewrite flat_map_app; apply app_nil_r).
    assert (E3 : skeys (tr ++ [ev]) = skeys tr ++ [sk]) by (unfold skeys; rewrite flat_map_app; reflexivity).
    assert (E4 : rkeys (tr ++ [ev]) = rkeys tr ++ [rk]) by (unfold rkeys; rewrite flat_map_app; reflexivity).
    assert (E5 : forall k, accs_of k (tr ++ [ev]) = accs_of k tr) by (intros k; rewrite accs_of_app; apply app_nil_r).
    rewrite E3 in ND1. rewrite E4 in ND2. apply nodup_snoc in ND1, ND2. destruct ND1 as (_ & FS), ND2 as (_ & FR).
    destruct K. constructor; rewrite ?E1, ?E2, ?E3, ?E4; try assumption.
    + intros j t. destruct (CASE j t) as [(-> & -> & ->)|(N & ->)]; intros H.
      * cbn [nk k_skey k_rkey k_sbirth k_rbirth]. split; [apply in_or_app; right; left; reflexivity|]. split; [reflexivity|lia].
      * destruct (ki_live0 j t H) as (A & B). split; [apply in_or_app; left; exact A|exact B].
    + intros j t. destruct (CASE j t) as [(-> & -> & ->)|(N & ->)]; [cbn; lia|apply ki_ctr0].
    + intros j t. destruct (CASE j t) as [(-> & -> & ->)|(N & ->)]; [|apply ki_used0]. intros _ c IC. cbn [nk k_skey] in IC. apply ki_key0 in IC. contradiction.
    + intros j t. destruct (CASE j t) as [(-> & -> & ->)|(N & ->)]; intros H; rewrite E5; [|apply ki_rx0, H]. cbn [nk k_rkey k_rx].
      destruct (accs_of rk tr) as [|x l] eqn:EA; [apply WInv_init|]. exfalso. apply FR.
      apply ki_rkey0 with (c := x). apply accs_of_in. rewrite EA. left; reflexivity.
    + assert (OLD : forall j t, live (V j t) -> k_skey (V j t) <> sk /\ k_rkey (V j t) <> rk).
      { intros j t H. destruct (ki_live0 j t H) as (A & _). apply new_skey in A. destruct A as (A1 & A2). split; congruence. }
      intros j t j' t'. destruct (CASE j t) as [(-> & -> & ->)|(N & ->)], (CASE j' t') as [(-> & -> & ->)|(N' & ->)]; intros H1 H2 NE.
      * congruence.
      * cbn [nk k_skey k_rkey]. destruct (OLD j' t' H2). split; congruence.
      * cbn [nk k_skey k_rkey]. destruct (OLD j t H1). split; congruence.
      * apply ki_one0; assumption.
    + intros k c IC. apply in_or_app. left. exact (ki_key0 k c IC).
    + intros k c IC. apply in_or_app. left. exact (ki_rkey0 k c IC).
    + apply justified_snoc; [assumption|exact I].
  - (* a message is refused by the window *)
    assert (WS := wg_step (k_rx (V i s)) (accs_of (k_rkey (V i s)) tr) c true (ki_rx _ _ _ K i s RV) CR).
    destruct WS as (k' & b & EQ & _ & WI). cbn [wg_inbound negb] in EQ. injection EQ as EQ. rewrite EQ in *. cbn [fst snd] in *. subst b.
    eapply KI_quiet_slot; [exact K|exact U|exact UO| | |]; cbn [kp_rx k_svalid k_rvalid k_skey k_rkey k_sctr k_rx k_sbirth k_rbirth]; tauto.
  - (* a message is accepted *)
    pose proof (wg_step (k_rx (V i s)) (accs_of (k_rkey (V i s)) tr) c true (ki_rx _ _ _ K i s RV) CR) as WS.
    destruct WS as (k' & b & EQ & AI & WI). cbn [wg_inbound negb] in EQ. injection EQ as EQ. rewrite EQ in *. cbn [fst snd] in *. subst b.
    destruct (proj1 AI eq_refl) as (_ & CL & NI & _).
    destruct (ki_live _ _ _ K i s (or_intror RV)) as (L1 & L2 & L3).
    assert (EA : u64 (now - k_rbirth (V i s)) = now - k_sbirth (V i s)) by (rewrite L2; unfold u64; apply Z.mod_small; lia).
    rewrite EA in AGE. unfold REJECT_AFTER_MS in AGE.
    destruct U as (U1 & U2).
    assert (CASE : forall j t, (j = i /\ t = s /\ V1 j t = kp_rx (V i s) k') \/ ((j, t) <> (i, s) /\ V1 j t = V j t)).
    { intros j t. destruct (pair_dec j t i s) as [E|N]; [injection E as -> ->; left; auto|right]. split; [exact N|].
      destruct (Nat.eq_dec j i) as [->|NJ]; [apply U2; congruence|apply UO, NJ]. }
    set (ev := EAcc _ _ _ _ _) in *.
    assert (E1 : nonces (tr ++ [ev]) = nonces tr) by (unfold nonces; rewrite flat_map_app; apply app_nil_r).
    assert (E2 : accepts (tr ++ [ev]) = accepts tr ++ [(k_rkey (V i s), c)]) by (unfold accepts; rewrite flat_map_app; reflexivity).
    assert (E3 : skeys (tr ++ [ev]) = skeys tr) by (unfold skeys; rewrite flat_map_app; apply app_nil_r).
    assert (E4 : rkeys (tr ++ [ev]) = rkeys tr) by (unfold rkeys; rewrite flat_map_app; apply app_nil_r).
    destruct K. constructor; rewrite ?E1, ?E2, ?E3, ?E4; try assumption.
    + intros j t. destruct (CASE j t) as [(-> & -> & ->)|(N & ->)]; intros H.
      * cbn [kp_rx k_skey k_rkey k_sbirth k_rbirth]. split; [apply in_or_app; left; exact L1|]. split; assumption.
      * destruct (ki_live0 j t H) as (A & B). split; [apply in_or_app; left; exact A|exact B].
    + intros j t. destruct (CASE j t) as [(-> & -> & ->)|(N & ->)]; [exact (ki_ctr0 i s)|apply ki_ctr0].
    + intros j t. destruct (CASE j t) as [(-> & -> & ->)|(N & ->)]; [exact (ki_used0 i s)|apply ki_used0].
    + intros j t. destruct (CASE j t) as [(-> & -> & ->)|(N & ->)]; intros H; rewrite accs_of_app.
      * cbn [kp_rx k_rkey k_rx]. unfold accs_of at 2. cbn [ev flat_map]. destruct (keq (k_rkey (V i s)) (k_rkey (V i s))); [|contradiction]. exact WI.
      * unfold accs_of at 2. cbn [ev flat_map]. destruct (keq (k_rkey (V i s)) (k_rkey (V j t))) as [EK|NK].
        -- exfalso. destruct (ki_one0 j t i s (or_intror H) (or_intror RV) N) as (_ & X). congruence.
        -- cbn [app]. rewrite app_nil_r. apply ki_rx0, H.
    + intros j t j' t'. destruct (CASE j t) as [(-> & -> & ->)|(N & ->)], (CASE j' t') as [(-> & -> & ->)|(N' & ->)]; intros H1 H2 NE.
      * congruence.
      * cbn [kp_rx k_skey k_rkey]. apply ki_one0; [exact H1|exact H2|congruence].
      * cbn [kp_rx k_skey k_rkey]. apply ki_one0; [exact H1|exact H2|congruence].
      * apply ki_one0; assumption.
    + apply nodup_snoc'; [assumption|]. intros IN. apply NI. apply accs_of_in. exact IN.
    + intros k x IC. apply in_snoc in IC. destruct IC as [IC|IC]; [exact (ki_rkey0 k x IC)|]. injection IC as -> ->. eapply new_skey, L1.
    + apply justified_snoc; [assumption|]. cbn. exists (k_skey (V i s)), (k_sbirth (V i s)). split; [exact L1|]. split; [lia|]. rewrite reject_val in CL. lia.
  - apply KI_neutral; [exact NE|]. eapply KI_ext; [|exact K]. intros j s. destruct (Nat.eq_dec j i) as [->|NJ]; [apply U|apply UO, NJ].
Qed.

Lemma keys_prefix a b : skeys (a ++ b) = skeys a ++ skeys b /\ rkeys (a ++ b) = rkeys a ++ rkeys b.
Proof. split; apply flat_map_app. Qed.
Lemma nodup_prefix {A} (a b : list A) : NoDup (a ++ b) -> NoDup a.
Proof.
  induction a as [|x a IH]; intros H; [constructor|]. cbn in H. inversion H as [|y l H1 H2]; subst. constructor; [|apply IH, H2].
  intros I. apply H1, in_or_app. left. exact I.
Qed.

Lemma gsteps_KI now V e V' : gsteps now V e V' -> 0 <= now < 2 ^ 64 -> forall tr, KI V tr now ->
  NoDup (skeys (tr ++ e)) -> NoDup (rkeys (tr ++ e)) -> KI V' (tr ++ e) now.
Proof.
  intros G HN. induction G as [V V' H|V V1 V2 i e1 e2 K1 K2 K3 IH]; intros tr K N1 N2.
  - rewrite app_nil_r. eapply KI_ext; [exact H|exact K].
  - rewrite app_assoc in *. apply IH; [|exact N1|exact N2]. eapply kstep_KI; [exact K|exact HN|exact K1|exact K2| |].
    + rewrite (proj1 (keys_prefix (tr ++ e1) e2)) in N1. eapply nodup_prefix, N1.
    + rewrite (proj2 (keys_prefix (tr ++ e1) e2)) in N2. eapply nodup_prefix, N2.
Qed.

Section Trace.
Context (C : crypto).

Lemma run_KI ops : forall d tr, dev_wf d -> 0 <= g_now (fst d) < 2 ^ 64 -> hist_ok (g_now (fst d)) ops -> KI (gview d) tr (g_now (fst d)) ->
  NoDup (skeys (tr ++ snd (run C d ops))) -> NoDup (rkeys (tr ++ snd (run C d ops))) ->
  dev_wf (fst (run C d ops)) /\ KI (gview (fst (run C d ops))) (tr ++ snd (run C d ops)) (g_now (fst (fst (run C d ops)))).
Proof.
  induction ops as [|(o, r) ops IH]; intros d tr W HN HO K N1 N2; cbn [run] in *.
  - cbn [fst snd] in *. rewrite app_nil_r. split; assumption.
  - destruct HO as (HO1 & HO2). destruct (step_ok C d o r W HO1) as ((W1 & G1) & EN).
    destruct (step C d o r) as [d1 e1]. cbn [fst snd] in *.
    specialize (IH d1 (tr ++ e1) W1). destruct (run C d1 ops) as [d2 e2]. cbn [fst snd] in *. rewrite app_assoc in *.
    assert (HN1 : 0 <= g_now (fst d1) < 2 ^ 64 /\ g_now (fst d) <= g_now (fst d1)).
    { rewrite EN. destruct o; cbn [op_ok op_now] in *; lia. }
    apply IH; [apply HN1|rewrite EN; exact HO2| |exact N1|exact N2].
    eapply gsteps_KI; [exact G1|apply HN1|eapply KI_time; [apply HN1|exact K]| |].
    + rewrite (proj1 (keys_prefix (tr ++ e1) e2)) in N1. eapply nodup_prefix, N1.
    + rewrite (proj2 (keys_prefix (tr ++ e1) e2)) in N2. eapply nodup_prefix, N2.
Qed.

Lemma init_view i s : gview dev_init i s = kp_zero.
Proof.
  unfold gview, pview, slot. cbn [dev_init snd]. do 8 (destruct i as [|i]; [cbn [nth repeat peer_zero p_kps kps_zero s_slots]; do 3 (destruct s as [|s]; [reflexivity|]); destruct s; reflexivity|]).
  destruct i; cbn; do 3 (destruct s as [|s]; [reflexivity|]); destruct s; reflexivity.
Qed.
Lemma KI_init : KI (gview dev_init) [] 0.
Proof.
  assert (NL : forall i s, ~ live (gview dev_init i s)) by (intros i s; rewrite init_view; intros [H|H]; discriminate).
  constructor; try (constructor; fail).
  - intros i s H. destruct (NL i s H).
  - intros i s H. destruct (NL i s (or_introl H)).
  - intros i s H. destruct (NL i s (or_introl H)).
  - intros i s H. destruct (NL i s (or_intror H)).
  - intros i s j t H. destruct (NL i s H).
  - intros k c [].
  - intros k c [].
  - intros a e b E. destruct a; discriminate.
Qed.

Lemma trace_KI ops : hist_ok 0 ops -> NoDup (skeys (snd (run C dev_init ops))) -> NoDup (rkeys (snd (run C dev_init ops))) ->
  KI (gview (fst (run C dev_init ops))) (snd (run C dev_init ops)) (g_now (fst (fst (run C dev_init ops)))).
Proof.
  intros HO N1 N2. apply (run_KI ops dev_init [] dev_init_wf); [cbn; lia|exact HO|exact KI_init|exact N1|exact N2].
Qed.

End Trace.
