(** C30: wolfGuard's replay window for data-message counters. *)
From Verif Require Import Base ReplaySpec WgCounter EspReplayProps.
Local Ltac Zify.zify_post_hook ::= idtac.

Definition wbit (l : list Z) (j : Z) : bool := Z.testbit (zget l (j / 32)) (j mod 32).

Definition wf_bits (l : list Z) : Prop := length l = 32%nat.

Lemma set_word_length l i v : wf_bits l -> 0 <= i < 32 -> wf_bits (set_word l i v).
Proof. unfold wf_bits, set_word. intros H Hi. rewrite app_length, firstn_length. cbn [length]. rewrite skipn_length. lia. Qed.
Lemma set_word_get l i v j : wf_bits l -> 0 <= i < 32 -> 0 <= j ->
  zget (set_word l i v) j = if j =? i then v else zget l j.
Proof.
  unfold wf_bits, set_word, zget. intros H Hi Hj. destruct (Z.eqb_spec j i) as [-> |D].
  - rewrite app_nth2; rewrite firstn_length; [|lia]. replace (Z.to_nat i - Nat.min (Z.to_nat i) (length l))%nat with 0%nat by lia. reflexivity.
  - destruct (Z.ltb_spec j i).
    + rewrite app_nth1 by (rewrite firstn_length; lia).
      rewrite <- (firstn_skipn (Z.to_nat i) l) at 2. rewrite app_nth1 by (rewrite firstn_length; lia). reflexivity.
    + rewrite app_nth2; rewrite firstn_length; [|lia].
      replace (Z.to_nat j - Nat.min (Z.to_nat i) (length l))%nat with (S (Z.to_nat j - Z.to_nat i - 1)) by lia.
      cbn [nth]. rewrite <- (firstn_skipn (S (Z.to_nat i)) l) at 2.
      rewrite app_nth2; rewrite firstn_length; [|lia]. f_equal. lia.
Qed.

Lemma idx_range c : 0 <= c mod 1024 < 1024.
Proof. apply Z.mod_pos_bound. lia. Qed.
Lemma u32_idx c : u32 (c mod 1024) = c mod 1024.
Proof. unfold u32. apply Z.mod_small. pose proof (idx_range c). lia. Qed.
Lemma word_range j : 0 <= j < 1024 -> 0 <= j / 32 < 32.
Proof. intros H. split; [apply Z.div_pos; lia|apply Z.div_lt_upper_bound; lia]. Qed.
Lemma bit_range j : 0 <= j mod 32 < 32.
Proof. apply Z.mod_pos_bound. lia. Qed.
Lemma split_idx a b : 0 <= a -> 0 <= b -> a / 32 = b / 32 -> a mod 32 = b mod 32 -> a = b.
Proof. intros Ha Hb H1 H2. rewrite (Z.div_mod a 32), (Z.div_mod b 32) by lia. congruence. Qed.

Lemma shl1 n : 0 <= n -> Z.shiftl 1 n = 2 ^ n.
Proof. intros. rewrite Z.shiftl_mul_pow2; lia. Qed.

Lemma clear_bit_spec l i j : wf_bits l -> 0 <= j < 1024 ->
  wf_bits (clear_bit l i) /\ wbit (clear_bit l i) j = if j =? i mod 1024 then false else wbit l j.
Proof.
  intros HW Hj. unfold clear_bit, WG_WINDOW. rewrite u32_idx. pose proof (idx_range i) as HI.
  pose proof (word_range _ HI) as HR. pose proof (bit_range (i mod 1024)) as HB.
  split; [apply set_word_length; assumption|]. unfold wbit. pose proof (word_range _ Hj) as HJ. pose proof (bit_range j) as HBj.
  rewrite set_word_get by (assumption || lia).
  assert (TB : forall k, 0 <= k < 32 -> Z.testbit (u32 (Z.lnot (Z.shiftl 1 ((i mod 1024) mod 32)))) k = negb (k =? (i mod 1024) mod 32)).
  { intros k Hk. unfold u32. change 4294967296 with (2 ^ 32). rewrite Z.mod_pow2_bits_low, Z.lnot_spec, shl1 by lia.
    rewrite Z.pow2_bits_eqb by lia. rewrite Z.eqb_sym. reflexivity. }
  destruct (Z.eqb_spec (j / 32) ((i mod 1024) / 32)) as [E|E].
  - rewrite Z.land_spec, TB by assumption. destruct (Z.eqb_spec (j mod 32) ((i mod 1024) mod 32)) as [E2|E2].
    + destruct (Z.eqb_spec j (i mod 1024)) as [_|D]; [apply andb_false_r|]. exfalso. apply D. apply split_idx; lia.
    + destruct (Z.eqb_spec j (i mod 1024)) as [Q|D]; [rewrite Q in E2; congruence|]. rewrite <- E. apply andb_true_r.
  - destruct (Z.eqb_spec j (i mod 1024)) as [Q|D]; [rewrite Q in E; congruence|reflexivity].
Qed.

Lemma clear_from_spec n : forall i l j, wf_bits l -> 0 <= j < 1024 ->
  wf_bits (clear_from n i l) /\
  ((exists k, i <= k < i + Z.of_nat n /\ j = k mod 1024) -> wbit (clear_from n i l) j = false) /\
  ((forall k, i <= k < i + Z.of_nat n -> j <> k mod 1024) -> wbit (clear_from n i l) j = wbit l j).
Proof.
  induction n as [|n IH]; intros i l j HW Hj.
  - cbn [clear_from]. split; [assumption|]. split; [intros (k & Hk & _); lia|reflexivity].
  - cbn [clear_from]. destruct (clear_bit_spec l i j HW Hj) as [HW1 HB].
    destruct (IH (i + 1) _ j HW1 Hj) as (HW2 & H1 & H2). split; [assumption|]. split.
    + intros (k & Hk & Q). destruct (Z.eq_dec k i) as [-> |D].
      * assert (F : wbit (clear_bit l i) j = false) by (rewrite HB, Q, Z.eqb_refl; reflexivity).
        destruct (wbit (clear_from n (i + 1) (clear_bit l i)) j) eqn:T; [|reflexivity].
        exfalso. (* either some later k hits j, or the bit is unchanged *)
        assert (W : (exists k, i + 1 <= k < i + 1 + Z.of_nat n /\ j = k mod 1024) \/
                    (forall k, i + 1 <= k < i + 1 + Z.of_nat n -> j <> k mod 1024)).
        { clear. revert i. induction n as [|m IHm]; intros i; [right; intros k Hk; lia|].
          destruct (Z.eq_dec j ((i + 1) mod 1024)) as [E|E]; [left; exists (i + 1); split; [lia|assumption]|].
          destruct (IHm (i + 1)) as [(k & Hk & Q)|N]; [left; exists k; split; [lia|assumption]|].
          right. intros k Hk. destruct (Z.eq_dec k (i + 1)) as [-> |D]; [assumption|]. apply N. lia. }
        destruct W as [W|W]; [specialize (H1 W); discriminate|specialize (H2 W); congruence].
      * apply H1. exists k. split; [lia|assumption].
    + intros N. rewrite H2; [|intros k Hk; apply N; lia]. rewrite HB.
      destruct (Z.eqb_spec j (i mod 1024)) as [Q|D]; [exfalso; apply (N i); [lia|assumption]|reflexivity].
Qed.

(** Bit [c mod 1024] stands for counter [c], for the counters in the window. *)
Definition WInv (k : wgrx) (acc : list Z) : Prop :=
  wf_bits (w_bits k) /\ 0 <= w_max k < WG_REJECT_AFTER_MESSAGES /\ w_max k = newest 0 acc /\
  (forall c, 0 <= c -> w_max k - 1024 < c <= w_max k -> (wbit (w_bits k) (c mod 1024) = true <-> In c acc)).

Lemma mod_inj a b : - 1024 < a - b < 1024 -> a mod 1024 = b mod 1024 -> a = b.
Proof.
  intros H E. pose proof (Z.div_mod a 1024 ltac:(lia)) as A. pose proof (Z.div_mod b 1024 ltac:(lia)) as B.
  rewrite E in A. assert (a / 1024 = b / 1024) as Q by lia. rewrite Q in A. lia.
Qed.

Lemma wg_step k acc c a : WInv k acc -> 0 <= c < 2 ^ 64 ->
  exists k' v, Some (wg_inbound k c a) = Some (k', v) /\
    (v = true <-> a = true /\ (c < WG_REJECT_AFTER_MESSAGES /\ fresh 1024 0 acc c)) /\
    WInv k' (if v then acc ++ [c] else acc).
Proof.
  intros HI Hc. pose proof HI as (HW & HM & HN & HB). unfold wg_inbound.
  assert (REJ : forall x, (a = true /\ c < WG_REJECT_AFTER_MESSAGES /\ fresh 1024 0 acc c -> False) -> x = Some (k, false) ->
    exists k' v, x = Some (k', v) /\ (v = true <-> a = true /\ (c < WG_REJECT_AFTER_MESSAGES /\ fresh 1024 0 acc c)) /\
    WInv k' (if v then acc ++ [c] else acc)).
  { intros x HF ->. exists k, false. split; [reflexivity|]. split; [|exact HI]. split; [discriminate|]. intros F. destruct (HF F). }
  destruct a; cbn [negb]; [|apply REJ; [intros (X & _); discriminate|reflexivity]].
  unfold wg_counter_validate. destruct (Z.leb_spec WG_REJECT_AFTER_MESSAGES c) as [L|L]; [apply REJ; [lia|reflexivity]|].
  assert (EU : u64 (c + WG_WINDOW) = c + 1024).
  { unfold u64, WG_WINDOW. unfold WG_REJECT_AFTER_MESSAGES, WG_WINDOW in L. rewrite Z.mod_small; lia. }
  rewrite EU.
  (* the state after the window moved *)
  assert (K1 : exists k1, k1 = (if w_max k <? c then
      mkWgrx c (if WG_WINDOW <=? u64 (c - w_max k) then repeat 0 32 else clear_from (Z.to_nat (u64 (c - w_max k))) (w_max k + 1) (w_bits k))
    else k)) by (eexists; reflexivity).
  destruct K1 as (k1 & EK). rewrite <- EK.
  destruct (negb (w_max k <? c) && (c + 1024 <=? w_max k)) eqn:OLD.
  { apply REJ; [|reflexivity]. intros (_ & _ & _ & F). lia. }
  assert (KI : wf_bits (w_bits k1) /\ 0 <= w_max k1 < WG_REJECT_AFTER_MESSAGES /\ w_max k1 = Z.max c (newest 0 acc) /\
    (forall d, 0 <= d -> w_max k1 - 1024 < d <= w_max k1 -> (wbit (w_bits k1) (d mod 1024) = true <-> In d acc))).
  { rewrite EK. destruct (Z.ltb_spec (w_max k) c) as [ADV|ADV].
    - cbn [w_max w_bits]. assert (ED : u64 (c - w_max k) = c - w_max k).
      { unfold u64. change 18446744073709551616 with (2 ^ 64). rewrite Z.mod_small; lia. }
      rewrite ED. unfold WG_WINDOW. destruct (Z.leb_spec 1024 (c - w_max k)) as [FAR|NEAR].
      + split; [reflexivity|]. split; [lia|]. split; [lia|]. intros d Hd0 Hd. split.
        * intros T. unfold wbit, zget in T. exfalso.
          assert (Z0 : forall n m : nat, nth n (repeat 0 m) 0 = 0) by (intros n m; revert n; induction m; intros [|n]; cbn; auto).
          rewrite Z0, Z.bits_0 in T. discriminate.
        * intros I. apply (newest_in 0) in I. lia.
      + assert (HWF := proj1 (clear_from_spec (Z.to_nat (c - w_max k)) (w_max k + 1) (w_bits k) 0 HW ltac:(lia))).
        split; [exact HWF|]. split; [lia|]. split; [lia|]. intros d Hd0 Hd.
        destruct (clear_from_spec (Z.to_nat (c - w_max k)) (w_max k + 1) (w_bits k) (d mod 1024) HW (idx_range d)) as (_ & C1 & C2).
        destruct (Z.leb_spec d (w_max k)) as [LE|GT].
        * rewrite C2; [apply HB; lia|]. intros q Hq Q. apply mod_inj in Q; lia.
        * rewrite C1; [|exists d; split; [lia|reflexivity]]. split; [discriminate|].
          intros I. apply (newest_in 0) in I. lia.
    - split; [assumption|]. split; [assumption|]. split; [lia|]. exact HB. }
  clear EK. destruct KI as (KW & KM & KN & KB).
  assert (INW : w_max k1 - 1024 < c <= w_max k1).
  { destruct (Z.ltb_spec (w_max k) c); cbn [negb andb] in OLD; lia. }
  unfold WG_WINDOW. rewrite u32_idx. rewrite shl1, land_pow2_test, negb_involutive by apply bit_range.
  change (Z.testbit (zget (w_bits k1) (c mod 1024 / 32)) ((c mod 1024) mod 32)) with (wbit (w_bits k1) (c mod 1024)).
  destruct (wbit (w_bits k1) (c mod 1024)) eqn:T.
  - apply KB in T; [|lia|assumption]. exists k1, false. split; [reflexivity|]. split.
    + split; [discriminate|]. intros (_ & _ & NI & _). contradiction.
    + assert (c <= newest 0 acc) by (apply newest_in; assumption).
      split; [assumption|]. split; [assumption|]. split; [lia|]. exact KB.
  - assert (NI : ~ In c acc) by (intros I; apply KB in I; [congruence|lia|assumption]).
    eexists _, true. split; [reflexivity|]. split.
    + split; [|reflexivity]. intros _. split; [reflexivity|]. split; [assumption|]. split; [assumption|]. lia.
    + unfold WInv. cbn [w_bits w_max]. pose proof (idx_range c) as HX. pose proof (word_range _ HX) as HWR.
      pose proof (bit_range (c mod 1024)) as HBR.
      split; [apply set_word_length; assumption|]. split; [assumption|]. split; [rewrite newest_perm; assumption|].
      intros d Hd0 Hd. rewrite in_app_iff. cbn [In]. unfold wbit. pose proof (idx_range d) as HD. pose proof (word_range _ HD) as HWD. pose proof (bit_range (d mod 1024)) as HBD.
      rewrite set_word_get by (assumption || lia).
      destruct (Z.eqb_spec (d mod 1024 / 32) (c mod 1024 / 32)) as [E|E].
      * rewrite Z.lor_spec, Z.pow2_bits_eqb by lia.
        destruct (Z.eqb_spec ((c mod 1024) mod 32) ((d mod 1024) mod 32)) as [E2|E2].
        -- assert (d = c) as ->. { apply mod_inj; [lia|]. apply split_idx; lia. }
           rewrite orb_true_r. split; [intros _; right; left; reflexivity|reflexivity].
        -- rewrite orb_false_r, <- E. fold (wbit (w_bits k1) (d mod 1024)). rewrite KB by assumption.
           split; [tauto|]. intros [H|[H|[]]]; [assumption|]. subst. congruence.
      * fold (wbit (w_bits k1) (d mod 1024)). rewrite KB by assumption.
        split; [tauto|]. intros [H|[H|[]]]; [assumption|]. subst. congruence.
Qed.

Definition wg_in (k : wgrx) (c : Z) (a : bool) : option (wgrx * bool) := Some (wg_inbound k c a).

Lemma WInv_init : WInv wgrx_init [].
Proof.
  unfold WInv, wgrx_init. cbn [w_bits w_max]. split; [reflexivity|]. split; [unfold WG_REJECT_AFTER_MESSAGES, WG_WINDOW; lia|].
  split; [reflexivity|]. intros c H0 H. assert (c = 0) as -> by lia. cbn. split; [discriminate|tauto].
Qed.

(** C30.  For every sequence of arriving data messages under one receive key (any
    64-bit counters, any AEAD outcomes): a message is accepted exactly when it
    decrypts, its counter is below the message limit, was not accepted before,
    and is less than 1024 behind the newest accepted counter. *)
Theorem wg_window_exact : forall evs, (forall c a, In (c, a) evs -> 0 <= c < 2 ^ 64) ->
  exists out, outcomes wg_in wgrx_init evs = Some out /\ map fst out = evs /\
    forall o1 c a v o2, out = o1 ++ (c, a, v) :: o2 ->
      (v = true <-> a = true /\ c < 2 ^ 64 - 1026 /\ fresh 1024 0 (accepted o1) c).
Proof.
  intros evs HD.
  destruct (run_exact wg_in WInv (fun c => 0 <= c < 2 ^ 64)
              (fun acc c => c < WG_REJECT_AFTER_MESSAGES /\ fresh 1024 0 acc c)
              (fun st acc c a HI HC => wg_step st acc c a HI HC) evs wgrx_init [] WInv_init HD)
    as (out & E1 & E2 & E3).
  exists out. split; [assumption|]. split; [assumption|]. intros o1 c a v o2 EQ. apply (E3 o1 c a v o2 EQ).
Qed.

(** C30.  No counter is accepted twice on a key. *)
Theorem wg_no_replay : forall evs out, (forall c a, In (c, a) evs -> 0 <= c < 2 ^ 64) ->
  outcomes wg_in wgrx_init evs = Some out -> NoDup (accepted out).
Proof.
  intros evs out HD EO. destruct (wg_window_exact evs HD) as (out' & E1 & _ & E3).
  assert (out' = out) by congruence. subst out'.
  apply (exact_nodup (fun acc c => c < 2 ^ 64 - 1026 /\ fresh 1024 0 acc c)); [|exact E3].
  intros acc c (_ & NI & _). exact NI.
Qed.

Print Assumptions wg_window_exact.
Print Assumptions wg_no_replay.

Example ex_wg_run : outcomes wg_in wgrx_init
   [(0, true); (0, true); (5, true); (3, true); (5, false); (5, true); (2000, true); (976, true); (977, true); (1500, true); (1500, true); (2100, true); (1500, true); (18446744073709550590, true)]
 = Some [(0, true, true); (0, true, false); (5, true, true); (3, true, true); (5, false, false); (5, true, false);
         (2000, true, true); (976, true, false); (977, true, true); (1500, true, true); (1500, true, false); (2100, true, true); (1500, true, false); (18446744073709550590, true, false)].
Proof. vm_compute. reflexivity. Qed.
