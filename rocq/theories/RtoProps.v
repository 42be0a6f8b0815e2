(** C17: the retransmission timeout follows RFC 6298 within fixed bounds for every history
    of samples; back-off doubles up to 64 s and the connection is not given up early. *)
From Coq Require Import QArith Qminmax Qabs Lqa Lia.
From Verif Require Import Base Rto.
Local Open Scope Z_scope.

(** ** Specification: RFC 6298 in exact arithmetic *)
(** SRTT and RTTVAR, milliseconds; section 2: first sample R: SRTT = R, RTTVAR = R/2; then
    RTTVAR = 3/4 RTTVAR + 1/4 |SRTT - R|, SRTT = 7/8 SRTT + 1/8 R;
    RTO = SRTT + max (G, 4 RTTVAR), clock granularity G = 1 ms. *)
Definition rfc_first (R : Q) : Q * Q := (R, R / 2)%Q.
Definition rfc_next (sv : Q * Q) (R : Q) : Q * Q :=
  let '(SR, RV) := sv in ((7 # 8) * SR + (1 # 8) * R, (3 # 4) * RV + (1 # 4) * Qabs (SR - R))%Q.
Fixpoint rfc_fold (sv : Q * Q) (l : list Z) : Q * Q :=
  match l with [] => sv | R :: l' => rfc_fold (rfc_next sv (inject_Z R)) l' end.
Definition rfc_rto (sv : Q * Q) : Q := (fst sv + Qmax 1 (4 * snd sv))%Q.
(** The implementation bounds: 1 s to 60 s. *)
Definition bounded_rto (x : Q) : Q := Qmin (60000 # 1) (Qmax (1000 # 1) x).

Definition rto_run (l : list Z) : rtts := fold_left rto_update l rtt0.

(** ** Bounds for every history of 32-bit samples, hostile ones included *)
Theorem rto_always_in_bounds : forall l, 1000 <= r_rto (rto_run l) <= 60000.
Proof.
  assert (G : forall l s, 1000 <= r_rto s <= 60000 -> 1000 <= r_rto (fold_left rto_update l s) <= 60000).
  { induction l as [|a l IH]; intros s H; [exact H|]. cbn [fold_left]. apply IH. unfold rto_update.
    destruct (negb (r_init s)); cbn [r_rto]; unfold rto_clamp, RTO_MIN, RTO_MAX; repeat (match goal with |- context [if ?c then _ else _] => destruct c eqn:? end); lia. }
  intros l. apply G. unfold rtt0, RTO_MIN. cbn [r_rto]. lia.
Qed.

(** ** Distance to RFC 6298 *)
Lemma shr3 x : Z.shiftr x 3 = x / 8. Proof. rewrite Z.shiftr_div_pow2 by lia. reflexivity. Qed.
Lemma shr2 x : Z.shiftr x 2 = x / 4. Proof. rewrite Z.shiftr_div_pow2 by lia. reflexivity. Qed.
Lemma shl3 x : Z.shiftl x 3 = x * 8. Proof. rewrite Z.shiftl_mul_pow2 by lia. reflexivity. Qed.
Lemma shl2 x : Z.shiftl x 2 = x * 4. Proof. rewrite Z.shiftl_mul_pow2 by lia. reflexivity. Qed.
Lemma shl1 x : Z.shiftl x 1 = x * 2. Proof. rewrite Z.shiftl_mul_pow2 by lia. reflexivity. Qed.
Lemma u32_id x : 0 <= x < 4294967296 -> u32 x = x. Proof. intros H. unfold u32. apply Z.mod_small. exact H. Qed.

Definition B : Z := 67108864. (* 2^26 ms, about 18 hours *)

(** One estimator step without 32-bit overflow. *)
Lemma rto_update_plain s R lo hi : r_init s = true -> 1 <= R -> lo <= R <= hi -> 0 <= lo -> hi < B ->
  8 * lo <= r_srtt s <= 8 * hi -> 0 <= r_rttvar s <= 4 * hi ->
  r_init (rto_update s R) = true /\
  r_srtt (rto_update s R) = (7 * r_srtt s + 8 * R) / 8 /\
  r_rttvar (rto_update s R) = (3 * r_rttvar s + 4 * Z.abs (r_srtt s / 8 - R)) / 4 /\
  r_rtt (rto_update s R) = r_srtt (rto_update s R) / 8 /\
  r_rto (rto_update s R) = rto_clamp (r_srtt (rto_update s R) / 8 + Z.max 1 (r_rttvar (rto_update s R))).
Proof.
  unfold B. intros HI HR HB HL HH HS HV. unfold rto_update. replace (R =? 0) with false by lia. rewrite HI. cbn [negb].
  cbn zeta. rewrite !shr3, !shl3, !shl2, !shr2. set (m := r_srtt s / 8). assert (HM : lo <= m <= hi) by (unfold m; lia).
  replace (if R <? m then u32 (m - R) else u32 (R - m)) with (Z.abs (m - R)) by (destruct (R <? m) eqn:E; rewrite u32_id; lia).
  rewrite (u32_id (7 * r_srtt s)), (u32_id (R * 8)), (u32_id (3 * r_rttvar s)), (u32_id (Z.abs (m - R) * 4)) by lia.
  rewrite (u32_id (7 * r_srtt s + R * 8)), (u32_id (3 * r_rttvar s + Z.abs (m - R) * 4)) by lia.
  cbn [r_init r_srtt r_rttvar r_rtt r_rto]. split; [reflexivity|]. split; [f_equal; lia|]. split; [f_equal; lia|]. split; [reflexivity|].
  set (a := (7 * r_srtt s + R * 8) / 8). set (v := (3 * r_rttvar s + Z.abs (m - R) * 4) / 4). assert (0 <= a / 8 < 2 * 67108864) by (unfold a; lia). assert (0 <= v <= 4 * 67108864) by (unfold v; lia).
  clearbody a v. unfold RTO_G. destruct (1 <? v) eqn:E; rewrite u32_id by lia; f_equal; lia.
Qed.

Definition rinv (lo hi : Z) (s : rtts) : Prop :=
  r_init s = true /\ 8 * lo <= r_srtt s <= 8 * hi /\ 0 <= r_rttvar s <= Z.max (2 * hi) (4 * (hi - lo)) /\
  r_rto s = rto_clamp (r_srtt s / 8 + Z.max 1 (r_rttvar s)).
Lemma rinv_first lo hi R : 1 <= R -> lo <= R <= hi -> 0 <= lo -> hi < B -> rinv lo hi (rto_update rtt0 R) /\
  r_srtt (rto_update rtt0 R) = 8 * R /\ r_rttvar (rto_update rtt0 R) = 2 * R.
Proof.
  unfold B. intros HR HB HL HH. unfold rto_update. replace (R =? 0) with false by lia. cbn [rtt0 r_init negb]. rewrite shl3, shl1, shr3. rewrite (u32_id (R * 8)), (u32_id (R * 2)) by lia.
  unfold rinv. cbn [r_init r_srtt r_rttvar r_rto]. replace (R * 8 / 8) with R by lia. unfold RTO_G. split; [|lia]. split; [reflexivity|]. split; [lia|]. split; [lia|].
  destruct (1 <? R * 2) eqn:E; rewrite u32_id by lia; f_equal; lia.
Qed.
Lemma rinv_next lo hi s R : 1 <= R -> lo <= R <= hi -> 0 <= lo -> hi < B -> rinv lo hi s -> rinv lo hi (rto_update s R).
Proof.
  unfold rinv. intros HR HB HL HH (I1 & I2 & I3 & I4). destruct (rto_update_plain s R lo hi I1 HR HB HL HH I2 ltac:(lia)) as (U1 & U2 & U3 & U4 & U5).
  split; [exact U1|]. rewrite U5, U3, U2. split; [lia|]. split; [|reflexivity]. assert (lo <= r_srtt s / 8 <= hi) by lia. assert (Z.abs (r_srtt s / 8 - R) <= hi - lo) by lia.
  set (e := Z.abs (r_srtt s / 8 - R)) in *. assert (0 <= e) by (unfold e; lia). clearbody e. lia.
Qed.

(** The RTO is governed by the samples: all samples within [lo, hi] (hi < 2^26 ms). *)
Theorem rto_tracks_samples : forall l lo hi, l <> [] -> 1 <= lo -> hi < 67108864 -> Forall (fun R => lo <= R <= hi) l ->
  rto_clamp lo <= r_rto (rto_run l) <= rto_clamp (hi + Z.max (2 * hi) (4 * (hi - lo))) /\ lo <= r_rtt (rto_run l) <= hi.
Proof.
  intros l lo hi NE HL HH HF. destruct l as [|R l]; [contradiction|]. inversion HF as [|? ? HR HF']; subst. unfold rto_run. cbn [fold_left].
  assert (G : forall l s, Forall (fun R => lo <= R <= hi) l -> rinv lo hi s -> r_rtt s = r_srtt s / 8 -> rinv lo hi (fold_left rto_update l s) /\ r_rtt (fold_left rto_update l s) = r_srtt (fold_left rto_update l s) / 8).
  { clear - HL HH. induction l as [|a l IH]; intros s HF HS HT; [split; assumption|]. inversion HF; subst. cbn [fold_left].
    apply IH; [assumption|apply rinv_next; [lia|assumption|lia|exact HH|exact HS]|].
    destruct HS as (I1 & I2 & I3 & I4). destruct (rto_update_plain s a lo hi I1 ltac:(lia) H1 ltac:(lia) HH I2 ltac:(lia)) as (_ & _ & _ & U4 & _). exact U4. }
  destruct (rinv_first lo hi R) as (F1 & F2 & F3); [lia|exact HR|lia|exact HH|].
  destruct (G l _ HF' F1) as ((G1 & G2 & G3 & G4) & G5).
  { unfold rto_update. destruct (R =? 0); cbn [rtt0 r_init negb r_rtt r_srtt]; apply shr3. }
  rewrite G4, G5. split; [|lia]. set (s := fold_left rto_update l (rto_update rtt0 R)) in *. set (m := r_srtt s / 8) in *. assert (lo <= m <= hi) by (unfold m; lia). clearbody m.
  unfold rto_clamp, RTO_MIN, RTO_MAX. repeat (match goal with |- context [if ?c then _ else _] => destruct c eqn:? end); lia.
Qed.

Local Open Scope Q_scope.
(** Error invariant: 8 SRTT is within 8 units above srtt, 4 RTTVAR within 10.5 of rttvar. *)
Definition qinv (s : rtts) (sv : Q * Q) : Prop :=
  inject_Z (r_srtt s) <= 8 * fst sv <= inject_Z (r_srtt s) + 8 /\ Qabs (inject_Z (r_rttvar s) - 4 * snd sv) <= 21 # 2.
Lemma qdiv a b n : (0 < n)%Z -> (a = b / n)%Z -> inject_Z n * inject_Z a <= inject_Z b <= inject_Z n * inject_Z a + inject_Z n - 1.
Proof.
  intros H E. rewrite <- inject_Z_mult. change 1 with (inject_Z 1). unfold Qminus. rewrite <- inject_Z_opp, <- !inject_Z_plus. rewrite <- !Zle_Qle. subst a. lia.
Qed.
Lemma qabs_le x y : Qabs x <= y <-> - y <= x <= y.
Proof. apply Qabs_Qle_condition. Qed.
Lemma qabs_cases x : (0 <= x /\ Qabs x == x) \/ (x <= 0 /\ Qabs x == - x).
Proof. destruct (Qlt_le_dec x 0) as [H|H]; [right; split; [lra|apply Qabs_neg; lra]|left; split; [exact H|apply Qabs_pos; exact H]]. Qed.
Lemma inject_Z_abs z : inject_Z (Z.abs z) == Qabs (inject_Z z).
Proof. reflexivity. Qed.
Lemma qinv_next lo hi s sv R : (1 <= R)%Z -> (lo <= R <= hi)%Z -> (0 <= lo)%Z -> (hi < B)%Z -> rinv lo hi s -> qinv s sv ->
  qinv (rto_update s R) (rfc_next sv (inject_Z R)).
Proof.
  intros HR HB HL HH (I1 & I2 & I3 & I4) (Q1 & Q2). destruct (rto_update_plain s R lo hi I1 HR HB HL HH I2) as (_ & U2 & U3 & _ & _); [lia|].
  destruct sv as [SR RV]. cbn [fst snd] in *. unfold qinv, rfc_next. cbn [fst snd].
  pose proof (qdiv _ _ 8 ltac:(lia) U2) as D1. pose proof (qdiv _ _ 4 ltac:(lia) U3) as D2. pose proof (qdiv (r_srtt s / 8) (r_srtt s) 8 ltac:(lia) eq_refl) as D3.
  rewrite !inject_Z_plus, !inject_Z_mult in D1, D2. rewrite inject_Z_abs in D2. unfold Z.sub in D2. rewrite inject_Z_plus, inject_Z_opp in D2.
  change (inject_Z 8) with 8 in *. change (inject_Z 7) with 7 in *. change (inject_Z 3) with 3 in *. change (inject_Z 4) with 4 in *.
  set (s0 := inject_Z (r_srtt s)) in *. set (s1 := inject_Z (r_srtt (rto_update s R))) in *. set (v0 := inject_Z (r_rttvar s)) in *. set (v1 := inject_Z (r_rttvar (rto_update s R))) in *.
  set (m := inject_Z (r_srtt s / 8)) in *. set (r := inject_Z R) in *. clearbody s0 s1 v0 v1 m r.
  split; [lra|]. apply qabs_le in Q2. apply qabs_le.
  destruct (qabs_cases (m + - r)) as [[A1 A2]|[A1 A2]]; destruct (qabs_cases (SR - r)) as [[B1 B2]|[B1 B2]]; rewrite A2 in D2; rewrite B2; lra.
Qed.

(** For every history of RTT samples below 2^26 ms, the RTO is within 13 ms of the value
    RFC 6298 prescribes (in exact arithmetic, bounded to 1 s .. 60 s). *)
Theorem rto_matches_rfc6298 : forall R l, Forall (fun x => (1 <= x < 67108864)%Z) (R :: l) ->
  Qabs (inject_Z (r_rto (rto_run (R :: l))) - bounded_rto (rfc_rto (rfc_fold (rfc_first (inject_Z R)) l))) <= 13.
Proof.
  intros R l HF. inversion HF as [|? ? HR HF']; subst. unfold rto_run. cbn [fold_left].
  destruct (rinv_first 1 (B - 1) R) as (F1 & F2 & F3); [lia|unfold B; lia|lia|lia|].
  assert (F4 : qinv (rto_update rtt0 R) (rfc_first (inject_Z R))).
  { unfold qinv, rfc_first. cbn [fst snd]. rewrite F2, F3, !inject_Z_mult. change (inject_Z 8) with 8. change (inject_Z 2) with 2. split; [lra|]. apply qabs_le. unfold Qdiv. change (/ 2) with (1 # 2). lra. }
  clear F2 F3.
  assert (G : forall l s sv, Forall (fun x => (1 <= x < 67108864)%Z) l -> rinv 1 (B - 1) s -> qinv s sv ->
    rinv 1 (B - 1) (fold_left rto_update l s) /\ qinv (fold_left rto_update l s) (rfc_fold sv l)).
  { clear. induction l as [|a l IH]; intros s sv HF HS HQ; [split; assumption|]. inversion HF; subst. cbn [fold_left rfc_fold].
    apply IH; [assumption|apply rinv_next; unfold B in *; lia || assumption|]. eapply qinv_next with (lo := 1%Z) (hi := (B - 1)%Z); unfold B in *; try lia; assumption. }
  destruct (G l _ _ HF' F1 F4) as ((_ & H1 & H2 & H3) & (H4 & H5)). rewrite H3. clear - H1 H2 H4 H5.
  set (s := fold_left rto_update l (rto_update rtt0 R)) in *. destruct (rfc_fold (rfc_first (inject_Z R)) l) as [SR RV]. unfold rfc_rto. cbn [fst snd] in *.
  pose proof (qdiv (r_srtt s / 8) (r_srtt s) 8 ltac:(lia) eq_refl) as D3. change (inject_Z 8) with 8 in *. apply qabs_le in H5.
  set (m := (r_srtt s / 8)%Z) in *. set (v := r_rttvar s) in *. set (s0 := inject_Z (r_srtt s)) in *. clearbody s0.
  assert (X : Qabs (inject_Z (m + Z.max 1 v) - (SR + Qmax 1 (4 * RV))) <= 13).
  { apply qabs_le. rewrite inject_Z_plus. destruct (Z.max_spec 1 v) as [[A ->]|[A ->]]; rewrite ?Zlt_Qlt, ?Zle_Qle in A; change (inject_Z 1) with 1 in *; destruct (Q.max_spec 1 (4 * RV)) as [[C ->]|[C ->]]; lra. }
  set (z := (m + Z.max 1 v)%Z) in *. set (q := SR + Qmax 1 (4 * RV)) in *. clearbody z q. apply qabs_le in X. apply qabs_le. unfold rto_clamp, RTO_MIN, RTO_MAX, bounded_rto.
  destruct (Z.ltb_spec z 1000) as [A|A]; rewrite ?Zlt_Qlt, ?Zle_Qle in A; change (inject_Z 1000) with (1000 # 1) in *.
  - destruct (Q.max_spec (1000 # 1) q) as [[C ->]|[C ->]]; [destruct (Q.min_spec (60000 # 1) q) as [[E ->]|[E ->]]|destruct (Q.min_spec (60000 # 1) (1000 # 1)) as [[E ->]|[E ->]]]; lra.
  - destruct (Z.ltb_spec 60000 z) as [E|E]; rewrite ?Zlt_Qlt, ?Zle_Qle in E; change (inject_Z 60000) with (60000 # 1) in *;
      (destruct (Q.max_spec (1000 # 1) q) as [[C ->]|[C ->]]; [destruct (Q.min_spec (60000 # 1) q) as [[F ->]|[F ->]]|destruct (Q.min_spec (60000 # 1) (1000 # 1)) as [[F ->]|[F ->]]]); lra.
Qed.
Local Close Scope Q_scope.

(** ** Back-off *)
Lemma shiftl_small r n : 1000 <= r <= 60000 -> 0 <= n <= 15 -> u64 (Z.shiftl r n) = r * 2 ^ n.
Proof.
  intros H N. rewrite Z.shiftl_mul_pow2 by lia. unfold u64. apply Z.mod_small. assert (0 < 2 ^ n) by (apply Z.pow_pos_nonneg; lia).
  assert (2 ^ n <= 32768) by (apply (Z.pow_le_mono_r 2 n 15); lia). set (p := 2 ^ n) in *. clearbody p. nia.
Qed.
(** Doubling per retry, capped at 64 s; never shorter than the base RTO, never shrinking. *)
Theorem backoff_doubles_to_cap : forall rto n, 1000 <= rto <= 60000 -> 0 <= n <= 15 ->
  backoff_rto rto n = Z.min (rto * 2 ^ n) 64000 /\ rto <= backoff_rto rto n <= 64000 /\
  (n < 15 -> backoff_rto rto n <= backoff_rto rto (n + 1) <= 2 * backoff_rto rto n).
Proof.
  assert (E : forall rto n, 1000 <= rto <= 60000 -> 0 <= n <= 15 -> backoff_rto rto n = Z.min (rto * 2 ^ n) 64000).
  { intros rto n H N. unfold backoff_rto. rewrite shiftl_small by assumption. unfold BACKOFF_MAX. destruct (64000 <? rto * 2 ^ n) eqn:C; lia. }
  intros rto n H N. rewrite E by assumption. split; [reflexivity|]. assert (1 <= 2 ^ n) by (apply (Z.pow_le_mono_r 2 0 n); lia). split; [nia|].
  intros L. rewrite E by lia. replace (n + 1) with (Z.succ n) by lia. rewrite Z.pow_succ_r by lia. nia.
Qed.
Theorem persist_interval_bounds : forall rto b, 1000 <= rto <= 60000 -> 0 <= b <= 10 ->
  1000 <= persist_interval rto b <= 60000 /\ persist_interval rto b = Z.min (rto * 2 ^ b) 60000 /\ 0 <= persist_next b <= 10.
Proof.
  intros rto b H N. assert (1 <= 2 ^ b) by (apply (Z.pow_le_mono_r 2 0 b); lia). unfold persist_interval, persist_next, PERSIST_MIN, PERSIST_MAX. rewrite shiftl_small by lia.
  assert (1000 <= rto * 2 ^ b) by nia. set (p := rto * 2 ^ b) in *. clearbody p. replace (p <? 1000) with false by lia.
  split; [|split]; repeat (match goal with |- context [if ?c then _ else _] => destruct c eqn:? end); lia.
Qed.

(** ** Giving up *)
(** A history of control timeouts: each happens when the deadline has passed (never early,
    see C07), with or without room to queue the retransmission. *)
Inductive ctrl_history (rto t0 : Z) : rtimer -> Prop :=
| ch_start : ctrl_history rto t0 (ctrl_start rto 0 t0)
| ch_step : forall t now queued t', ctrl_history rto t0 t -> tm_deadline t <= now -> ctrl_timeout rto t now queued = Some t' -> ctrl_history rto t0 t'.
Definition sum_waits (rto : Z) (n : nat) : Z := fold_right Z.add 0 (map (fun k => backoff_rto rto (Z.of_nat k)) (seq 0 n)).
Lemma sum_waits_S rto n : sum_waits rto (S n) = sum_waits rto n + backoff_rto rto (Z.of_nat n).
Proof.
  unfold sum_waits. rewrite seq_S, map_app. cbn [map Nat.add]. generalize (map (fun k => backoff_rto rto (Z.of_nat k)) (seq 0 n)). induction l as [|a l IH]; cbn [app fold_right]; lia.
Qed.
Lemma sum_waits_lb rto n : 1000 <= rto <= 60000 -> (n <= 16)%nat -> sum_waits 1000 n <= sum_waits rto n.
Proof.
  intros H. induction n as [|n IH]; intros N; [reflexivity|]. rewrite !sum_waits_S. destruct (backoff_doubles_to_cap rto (Z.of_nat n) H ltac:(lia)) as (E & _). destruct (backoff_doubles_to_cap 1000 (Z.of_nat n) ltac:(lia) ltac:(lia)) as (E' & _).
  rewrite E, E'. assert (0 < 2 ^ Z.of_nat n) by (apply Z.pow_pos_nonneg; lia). specialize (IH ltac:(lia)). nia.
Qed.
(** A SYN, SYN-ACK or FIN is retransmitted for at least three minutes (RFC 9293 R2) before
    the connection attempt or close is abandoned, whatever the queueing outcomes, and
    retransmitted at least 8 times. *)
Theorem ctrl_not_abandoned_before_3_minutes : forall rto t0 t now queued, 1000 <= rto <= 60000 -> ctrl_history rto t0 t ->
  tm_deadline t <= now -> ctrl_timeout rto t now queued = None -> tm_retries t = 8 /\ 180000 <= now - t0.
Proof.
  intros rto t0 t now queued HR HH HD HN.
  assert (INV : 0 <= tm_retries t <= 8 /\ t0 + sum_waits rto (Z.to_nat (tm_retries t + 1)) <= tm_deadline t).
  { clear HD HN. induction HH as [|t now' q t' HH IH HD E].
    - unfold ctrl_start. cbn [tm_retries tm_deadline]. split; [lia|]. change (Z.to_nat (0 + 1)) with 1%nat. unfold sum_waits. cbn [seq map fold_right Z.of_nat]. lia.
    - destruct IH as (I1 & I2). unfold ctrl_timeout, CTRL_MAXRTX in E. destruct (Z.leb_spec 8 (tm_retries t)) as [L|L]; [discriminate|].
      assert (t' = ctrl_start rto (if q then tm_retries t + 1 else tm_retries t) now') by congruence. subst t'. unfold ctrl_start. cbn [tm_retries tm_deadline].
      destruct q; (split; [lia|]).
      + replace (Z.to_nat (tm_retries t + 1 + 1)) with (S (Z.to_nat (tm_retries t + 1))) by lia. rewrite sum_waits_S. rewrite Z2Nat.id by lia. lia.
      + replace (Z.to_nat (tm_retries t + 1)) with (S (Z.to_nat (tm_retries t))) in * by lia. rewrite sum_waits_S in *. rewrite Z2Nat.id in * by lia.
        destruct (backoff_doubles_to_cap rto (tm_retries t) HR ltac:(lia)) as (_ & P & _). lia. }
  destruct INV as (I1 & I2). unfold ctrl_timeout, CTRL_MAXRTX in HN. destruct (Z.leb_spec 8 (tm_retries t)) as [L|L]; [|discriminate]. assert (tm_retries t = 8) by lia. split; [assumption|].
  rewrite H in I2. change (Z.to_nat (8 + 1)) with 9%nat in I2. pose proof (sum_waits_lb rto 9 HR ltac:(lia)) as LB. change (sum_waits 1000 9) with 255000 in LB. lia.
Qed.
(** Data: [t0] is when the segment was first sent (timer armed with no back-off). *)
Inductive data_history (rto t0 : Z) : rtimer -> Prop :=
| dh_start : data_history rto t0 (mkTm 0 (t0 + backoff_rto rto 0))
| dh_step : forall t now t', data_history rto t0 t -> tm_deadline t <= now -> data_timeout rto t now = Some t' -> data_history rto t0 t'.
Theorem data_retransmitted_15_times : forall rto t0 t now, 1000 <= rto <= 60000 -> data_history rto t0 t ->
  tm_deadline t <= now -> data_timeout rto t now = None -> tm_retries t = 15 /\ 703000 <= now - t0.
Proof.
  intros rto t0 t now HR HH HD HN.
  assert (INV : 0 <= tm_retries t <= 15 /\ t0 + sum_waits rto (Z.to_nat (tm_retries t + 1)) <= tm_deadline t).
  { clear HD HN. induction HH as [|t now' t' HH IH HD E].
    - cbn [tm_retries tm_deadline]. split; [lia|]. change (Z.to_nat (0 + 1)) with 1%nat. unfold sum_waits. cbn [seq map fold_right Z.of_nat]. lia.
    - destruct IH as (I1 & I2). unfold data_timeout, RTO_MAX_BACKOFF in E. destruct (Z.leb_spec 15 (tm_retries t)) as [L|L]; [discriminate|].
      assert (t' = mkTm (tm_retries t + 1) (now' + backoff_rto rto (tm_retries t + 1))) by congruence. subst t'. cbn [tm_retries tm_deadline]. split; [lia|].
      replace (Z.to_nat (tm_retries t + 1 + 1)) with (S (Z.to_nat (tm_retries t + 1))) by lia. rewrite sum_waits_S, Z2Nat.id by lia. lia. }
  destruct INV as (I1 & I2). unfold data_timeout, RTO_MAX_BACKOFF in HN. destruct (Z.leb_spec 15 (tm_retries t)) as [L|L]; [|discriminate]. assert (tm_retries t = 15) by lia. split; [assumption|].
  rewrite H in I2. change (Z.to_nat (15 + 1)) with 16%nat in I2. pose proof (sum_waits_lb rto 16 HR ltac:(lia)) as LB. change (sum_waits 1000 16) with 703000 in LB. lia.
Qed.

(** Non-vacuity. *)
Example rto_ex : r_rto (rto_run [800; 1200; 3000; 100]) = 4521.
Proof. vm_compute. reflexivity. Qed.
Example ctrl_ex : exists t, ctrl_history 1000 5 t /\ tm_retries t = 2 /\ tm_deadline t = 7005.
Proof.
  exists (mkTm 2 7005). split; [|split; reflexivity].
  apply (ch_step 1000 5 (mkTm 1 3005) 3005 true); [|cbn; lia|reflexivity]. apply (ch_step 1000 5 (mkTm 0 1005) 1005 true); [apply (ch_start 1000 5)|cbn; lia|reflexivity].
Qed.

Print Assumptions rto_always_in_bounds.
Print Assumptions rto_tracks_samples.
Print Assumptions rto_matches_rfc6298.
Print Assumptions backoff_doubles_to_cap.
Print Assumptions persist_interval_bounds.
Print Assumptions ctrl_not_abandoned_before_3_minutes.
Print Assumptions data_retransmitted_15_times.
