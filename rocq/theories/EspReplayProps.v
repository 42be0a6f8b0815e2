(** C29: the ESP anti-replay window (and its persistence), C41: outbound sequence numbers. *)
From Coq Require Import FinFun.
From Verif Require Import Base ReplaySpec EspReplay.
Local Ltac Zify.zify_post_hook ::= idtac.

(** Bit [i] of the window stands for sequence number [hi - i]. *)
Definition EInv (r : replay) (acc : list Z) : Prop :=
  64 <= r_hi r < 4294967296 /\ 0 <= r_bitmap r < 2 ^ 64 /\
  r_hi r = newest 64 acc /\
  (forall i, 0 <= i < 64 -> (Z.testbit (r_bitmap r) i = true <-> In (r_hi r - i) acc)).

Lemma shl1_in n : 0 <= n < 64 -> shl1_u64 n = Some (2 ^ n).
Proof.
  intros H. unfold shl1_u64. destruct (n <? 64) eqn:E; [|lia]. f_equal.
  rewrite Z.shiftl_mul_pow2, Z.mul_1_l by lia. unfold u64. apply Z.mod_small.
  split; [apply Z.pow_nonneg; lia|]. change 18446744073709551616 with (2 ^ 64). apply Z.pow_lt_mono_r; lia.
Qed.
Lemma land_pow2_test b n : 0 <= n -> (Z.land b (2 ^ n) =? 0) = negb (Z.testbit b n).
Proof.
  intros Hn. destruct (Z.testbit b n) eqn:T; cbn.
  - apply Z.eqb_neq. intros H. assert (Z.testbit (Z.land b (2 ^ n)) n = true) as X.
    { rewrite Z.land_spec, T, Z.pow2_bits_true by lia. reflexivity. }
    rewrite H, Z.bits_0 in X. discriminate.
  - apply Z.eqb_eq. apply Z.bits_inj'. intros m Hm. rewrite Z.land_spec, Z.bits_0.
    destruct (Z.eq_dec m n) as [-> |D]; [rewrite T; reflexivity|]. rewrite Z.pow2_bits_false by lia. apply andb_false_r.
Qed.
Lemma testbit_u64 x i : 0 <= i < 64 -> Z.testbit (u64 x) i = Z.testbit x i.
Proof. intros H. unfold u64. change 18446744073709551616 with (2 ^ 64). apply Z.mod_pow2_bits_low. lia. Qed.
Lemma bits_bound b n : 0 <= n -> 0 <= b -> (forall i, n <= i -> Z.testbit b i = false) -> b < 2 ^ n.
Proof.
  intros Hn Hb H. assert (E : b = b mod 2 ^ n).
  { apply Z.bits_inj'. intros i Hi. destruct (Z.ltb_spec i n).
    - rewrite Z.mod_pow2_bits_low by lia. reflexivity.
    - rewrite Z.mod_pow2_bits_high by lia. apply H. lia. }
  rewrite E. apply Z.mod_pos_bound. apply Z.pow_pos_nonneg; lia.
Qed.
Lemma testbit_high b n i : 0 <= b < 2 ^ n -> n <= i -> 0 <= n -> Z.testbit b i = false.
Proof.
  intros [H1 H2] H3 H4. rewrite <- (Z.mod_small b (2 ^ n)) by lia. apply Z.mod_pow2_bits_high. lia.
Qed.

Lemma esp_step r acc seq a : EInv r acc -> 0 <= seq < 4294967296 ->
  exists r' v, esp_inbound r seq a = Some (r', v) /\ (v = true <-> a = true /\ (seq <> 0 /\ fresh 64 64 acc seq)) /\
               EInv r' (if v then acc ++ [seq] else acc).
Proof.
  intros (HH & HB & HN & HT) Hs. unfold esp_inbound, esp_replay_check.
  destruct (Z.eqb_spec seq 0) as [Z0|Z0].
  { cbn. exists r, false. repeat split; try assumption; try (apply HH) ; try apply HB; try apply HT; intuition (try discriminate; congruence). }
  unfold ESP_REPLAY_WIN. destruct (64 - 1 <=? r_hi r) eqn:EW; [|lia].
  assert (EL : u32 (r_hi r - (64 - 1)) = r_hi r - 63).
  { unfold u32. rewrite Z.mod_small; lia. }
  rewrite EL. destruct (Z.ltb_spec seq (r_hi r - 63)) as [L|L].
  { cbn. exists r, false. split; [reflexivity|]. split; [|repeat split; try assumption; try apply HH; try apply HB; apply HT; assumption].
    unfold fresh. split; [discriminate|]. intros (_ & _ & _ & F). lia. }
  destruct (Z.leb_spec seq (r_hi r)) as [LE|GT].
  - assert (EU : u32 (r_hi r - seq) = r_hi r - seq) by (unfold u32; rewrite Z.mod_small; lia).
    assert (ES : shl1_u64 (u32 (r_hi r - seq)) = Some (2 ^ (r_hi r - seq))) by (rewrite EU; apply shl1_in; lia).
    rewrite ES. cbn [obind]. rewrite land_pow2_test, negb_involutive by lia.
    destruct (Z.testbit (r_bitmap r) (r_hi r - seq)) eqn:T.
    + cbn. exists r, false. split; [reflexivity|]. split; [|repeat split; try assumption; try apply HH; try apply HB; apply HT; assumption].
      split; [discriminate|]. intros (_ & _ & NI & _). exfalso. apply NI.
      apply HT in T; [|lia]. replace (r_hi r - (r_hi r - seq)) with seq in T by lia. exact T.
    + cbn [negb]. assert (NI : ~ In seq acc).
      { intros NI. assert (Z.testbit (r_bitmap r) (r_hi r - seq) = true) as X; [|congruence].
        apply HT; [lia|]. replace (r_hi r - (r_hi r - seq)) with seq by lia. exact NI. }
      destruct a.
      * cbn [negb]. unfold esp_replay_commit. destruct (seq <=? r_hi r) eqn:E2; [|lia]. rewrite ES. cbn [obind].
        eexists _, true. split; [reflexivity|]. split.
        { split; [intros _; unfold fresh; repeat split; try assumption; lia|reflexivity]. }
        assert (NM : newest 64 (acc ++ [seq]) = r_hi r) by (rewrite newest_perm; lia).
        unfold EInv. cbn [r_hi r_bitmap]. split; [assumption|]. split; [|split; [lia|]].
        -- split; [apply Z.lor_nonneg; split; [lia|apply Z.pow_nonneg; lia]|].
           apply bits_bound; [lia|apply Z.lor_nonneg; split; [lia|apply Z.pow_nonneg; lia]|].
           intros i Hi. rewrite Z.lor_spec, Z.pow2_bits_false by lia. rewrite (testbit_high _ 64) by lia. reflexivity.
        -- intros i Hi. rewrite Z.lor_spec, in_app_iff. cbn [In].
           destruct (Z.eq_dec i (r_hi r - seq)) as [-> |D].
           ++ rewrite Z.pow2_bits_true by lia. rewrite orb_true_r. split; [intros _; right; left; lia|reflexivity].
           ++ rewrite Z.pow2_bits_false by lia. rewrite orb_false_r, HT by assumption.
              split; [tauto|]. intros [H|[H|[]]]; [assumption|lia].
      * cbn. exists r, false. split; [reflexivity|]. split; [|repeat split; try assumption; try apply HH; try apply HB; apply HT; assumption].
        split; [discriminate|intros [H _]; discriminate].
  - cbn [obind negb]. assert (NI : ~ In seq acc) by (intros NI; apply (newest_in 64) in NI; lia).
    destruct a.
    + cbn [negb]. unfold esp_replay_commit. destruct (seq <=? r_hi r) eqn:E2; [lia|]. cbn [obind].
      assert (EU : u32 (seq - r_hi r) = seq - r_hi r) by (unfold u32; rewrite Z.mod_small; lia).
      rewrite EU. eexists _, true. split; [reflexivity|]. split.
      { split; [intros _; unfold fresh; repeat split; try assumption; lia|reflexivity]. }
      assert (NM : newest 64 (acc ++ [seq]) = seq) by (rewrite newest_perm; lia).
      unfold EInv. cbn [r_hi r_bitmap]. split; [lia|]. unfold ESP_REPLAY_WIN.
      destruct (Z.ltb_spec (seq - r_hi r) 64) as [D|D].
      * split; [|split; [lia|]].
        -- assert (0 <= Z.lor (u64 (Z.shiftl (r_bitmap r) (seq - r_hi r))) 1).
           { apply Z.lor_nonneg. split; [|lia]. unfold u64. apply Z.mod_pos_bound. reflexivity. }
           split; [assumption|]. apply bits_bound; [lia|assumption|]. intros i Hi. rewrite Z.lor_spec.
           change (Z.testbit 1 i) with (Z.testbit (2 ^ 0) i). rewrite Z.pow2_bits_false by lia.
           unfold u64. change 18446744073709551616 with (2 ^ 64). rewrite Z.mod_pow2_bits_high by lia. reflexivity.
        -- intros i Hi. rewrite Z.lor_spec, testbit_u64, Z.shiftl_spec, in_app_iff by lia. cbn [In].
           destruct (Z.eq_dec i 0) as [-> |D0].
           ++ change (Z.testbit 1 0) with true. rewrite orb_true_r. split; [intros _; right; left; lia|reflexivity].
           ++ change (Z.testbit 1 i) with (Z.testbit (2 ^ 0) i). rewrite Z.pow2_bits_false, orb_false_r by lia.
              destruct (Z.ltb_spec i (seq - r_hi r)) as [Q|Q].
              ** rewrite Z.testbit_neg_r by lia. split; [discriminate|]. intros [H|[H|[]]]; [|lia].
                 apply (newest_in 64) in H. lia.
              ** rewrite HT by lia. replace (r_hi r - (i - (seq - r_hi r))) with (seq - i) by lia.
                 split; [tauto|]. intros [H|[H|[]]]; [assumption|lia].
      * split; [lia|]. split; [lia|]. intros i Hi. rewrite in_app_iff. cbn [In].
        destruct (Z.eq_dec i 0) as [-> |D0].
        -- split; [intros _; right; left; lia|reflexivity].
        -- change (Z.testbit 1 i) with (Z.testbit (2 ^ 0) i). rewrite Z.pow2_bits_false by lia.
           split; [discriminate|]. intros [H|[H|[]]]; [|lia]. apply (newest_in 64) in H. lia.
    + cbn. exists r, false. split; [reflexivity|]. split; [|repeat split; try assumption; try apply HH; try apply HB; apply HT; assumption].
      split; [discriminate|intros [H _]; discriminate].
Qed.

Lemma EInv_init : EInv esp_replay_init [].
Proof.
  unfold EInv, esp_replay_init, ESP_REPLAY_WIN. cbn [r_hi r_bitmap newest fold_right].
  split; [lia|]. split; [lia|]. split; [reflexivity|]. intros i Hi. rewrite Z.bits_0. cbn. split; [discriminate|tauto].
Qed.

(** C29.  For every sequence of arriving ESP packets on an integrity-protected
    SA (any 32-bit sequence numbers, any authentication outcomes), processing is
    defined, and a packet's number is accepted exactly when the packet
    authenticates, the number is not 0, it was not accepted before, and it is
    less than 64 behind the newest accepted number (the window starts as if 64
    were the newest). *)
Theorem esp_window_exact : forall evs, (forall c a, In (c, a) evs -> 0 <= c < 4294967296) ->
  exists out, outcomes esp_inbound esp_replay_init evs = Some out /\ map fst out = evs /\
    forall o1 c a v o2, out = o1 ++ (c, a, v) :: o2 ->
      (v = true <-> a = true /\ c <> 0 /\ fresh 64 64 (accepted o1) c).
Proof.
  intros evs HD.
  destruct (run_exact esp_inbound EInv (fun c => 0 <= c < 4294967296)
              (fun acc c => c <> 0 /\ fresh 64 64 acc c)
              (fun st acc c a HI HC => esp_step st acc c a HI HC) evs esp_replay_init [] EInv_init HD)
    as (out & E1 & E2 & E3).
  exists out. split; [assumption|]. split; [assumption|]. intros o1 c a v o2 EQ. apply (E3 o1 c a v o2 EQ).
Qed.

(** C29.  No sequence number is accepted twice. *)
Theorem esp_no_replay : forall evs out, (forall c a, In (c, a) evs -> 0 <= c < 4294967296) ->
  outcomes esp_inbound esp_replay_init evs = Some out -> NoDup (accepted out).
Proof.
  intros evs out HD EO. destruct (esp_window_exact evs HD) as (out' & E1 & _ & E3).
  assert (out' = out) by congruence. subst out'.
  apply (exact_nodup (fun acc c => c <> 0 /\ fresh 64 64 acc c)); [|exact E3].
  intros acc c (_ & NI & _). exact NI.
Qed.

(** C29.  A packet that is not authentic leaves the whole window state as it was. *)
Theorem esp_unauthentic_is_harmless : forall r seq r' v,
  esp_inbound r seq false = Some (r', v) -> r' = r /\ v = false.
Proof.
  intros r seq r' v. unfold esp_inbound. destruct (esp_replay_check r seq) as [[|]|]; cbn; intros H; try discriminate; split; congruence.
Qed.

(** ** Restarts (the persistence callbacks)

    The life of an SA whose owner registered both callbacks and stores
    faithfully what the write callback is given: packets received, packets sent,
    and restarts that re-create the SA (esp_replay_init, then esp_state_restore). *)
Inductive life_ev := LRx (seq : Z) (icv_ok : bool) | LTx | LRestart.
Inductive life_out := OAccepted (seq : Z) | OSent (seq : Z) | ONothing.

Definition life_step (st : replay * option saved) (e : life_ev) : option (replay * option saved * life_out) :=
  let '(r, nv) := st in
  match e with
  | LRx seq ok =>
      do (r', v) <- esp_inbound r seq ok;
      Some (r', if v then Some (esp_state_save r') else nv, if v then OAccepted seq else ONothing)
  | LTx =>
      match esp_next_oseq r with
      | (r', Some s) => Some (r', Some (esp_state_save r'), OSent s)
      | (r', None) => Some (r', nv, ONothing)
      end
  | LRestart => Some (esp_state_restore esp_replay_init nv, nv, ONothing)
  end.
Fixpoint life (st : replay * option saved) (evs : list life_ev) : option (list life_out) :=
  match evs with
  | [] => Some []
  | e :: evs' => do (st', o) <- life_step st e; do os <- life st' evs'; Some (o :: os)
  end.

Definition life_accepted (os : list life_out) : list Z :=
  flat_map (fun o => match o with OAccepted s => [s] | _ => [] end) os.
Definition life_sent (os : list life_out) : list Z :=
  flat_map (fun o => match o with OSent s => [s] | _ => [] end) os.
Definition life_wf (e : life_ev) : Prop := match e with LRx c _ => 0 <= c < 4294967296 | _ => True end.

(** C29 fails across a restart: the write callback takes the 64-bit window as a
    uint32_t (wolfesp.h:114-118, wolfesp.c:50-51), so the older half of the
    window is forgotten and a captured packet is accepted again. *)
Theorem esp_no_replay_across_restart_refuted :
  ~ (forall evs os, Forall life_wf evs -> life (esp_replay_init, None) evs = Some os -> NoDup (life_accepted os)).
Proof.
  intros H. specialize (H [LRx 7 true; LRestart; LRx 7 true] _ ltac:(repeat constructor; lia) eq_refl).
  cbn in H. inversion H; subst. apply H2. left. reflexivity.
Qed.

(** The state invariant of a life: set bits are true, the low 32 bits exact. *)
Definition LInv (st : replay * option saved) (acc sent : list Z) : Prop :=
  let '(r, nv) := st in
  64 <= r_hi r < 4294967296 /\ 0 <= r_bitmap r < 2 ^ 64 /\ r_hi r = newest 64 acc /\
  (forall i, 0 <= i < 64 -> Z.testbit (r_bitmap r) i = true -> In (r_hi r - i) acc) /\
  (forall i, 0 <= i < 32 -> In (r_hi r - i) acc -> Z.testbit (r_bitmap r) i = true) /\
  (0 <= r_oseq r < 4294967296 /\ r_oseq r = newest 0 sent) /\
  match nv with
  | None => acc = [] /\ sent = []
  | Some s => s_oseq s = r_oseq r /\ s_hi s = r_hi r /\ s_bitmap s = u32 (r_bitmap r)
  end.

(** What a receive step may decide. *)
Definition rx_verdict (acc : list Z) (c : Z) (a v : bool) : Prop :=
  (a = true /\ c <> 0 /\ fresh 64 64 acc c -> v = true) /\
  (v = true -> a = true /\ c <> 0 /\ newest 64 acc - 64 < c /\ (newest 64 acc - 32 < c -> ~ In c acc)).

Lemma weak_step r nv acc sent seq a : LInv (r, nv) acc sent -> 0 <= seq < 4294967296 ->
  exists r' v, esp_inbound r seq a = Some (r', v) /\ rx_verdict acc seq a v /\
    LInv (r', if v then Some (esp_state_save r') else nv) (if v then acc ++ [seq] else acc) sent.
Proof.
  intros HI Hs. pose proof HI as (HH & HB & HN & HT1 & HT2 & HO & HV). unfold esp_inbound, esp_replay_check.
  assert (REJ : forall x, (a = true /\ seq <> 0 /\ fresh 64 64 acc seq -> False) -> x = Some (r, false) ->
    exists r' v, x = Some (r', v) /\ rx_verdict acc seq a v /\
      LInv (r', if v then Some (esp_state_save r') else nv) (if v then acc ++ [seq] else acc) sent).
  { intros x HF ->. exists r, false. split; [reflexivity|]. split; [|exact HI].
    split; [intros F; destruct (HF F)|discriminate]. }
  destruct (Z.eqb_spec seq 0) as [Z0|Z0]; [apply REJ; [tauto|reflexivity]|].
  unfold ESP_REPLAY_WIN. destruct (64 - 1 <=? r_hi r) eqn:EW; [|lia].
  assert (EL : u32 (r_hi r - (64 - 1)) = r_hi r - 63) by (unfold u32; rewrite Z.mod_small; lia).
  rewrite EL. destruct (Z.ltb_spec seq (r_hi r - 63)) as [L|L].
  { apply REJ; [unfold fresh; lia|reflexivity]. }
  destruct (Z.leb_spec seq (r_hi r)) as [LE|GT].
  - assert (EU : u32 (r_hi r - seq) = r_hi r - seq) by (unfold u32; rewrite Z.mod_small; lia).
    assert (ES : shl1_u64 (u32 (r_hi r - seq)) = Some (2 ^ (r_hi r - seq))) by (rewrite EU; apply shl1_in; lia).
    rewrite ES. cbn [obind]. rewrite land_pow2_test, negb_involutive by lia.
    destruct (Z.testbit (r_bitmap r) (r_hi r - seq)) eqn:T.
    + apply REJ; [|reflexivity]. intros (_ & _ & NI & _). apply NI.
      apply HT1 in T; [|lia]. replace (r_hi r - (r_hi r - seq)) with seq in T by lia. exact T.
    + cbn [negb]. assert (NI : r_hi r - 32 < seq -> ~ In seq acc).
      { intros LT NI. assert (Z.testbit (r_bitmap r) (r_hi r - seq) = true) as X; [|congruence].
        apply HT2; [lia|]. replace (r_hi r - (r_hi r - seq)) with seq by lia. exact NI. }
      destruct a; [|apply REJ; [intros (X & _); discriminate|reflexivity]].
      cbn [negb]. unfold esp_replay_commit. destruct (seq <=? r_hi r) eqn:E2; [|lia]. rewrite ES. cbn [obind].
      eexists _, true. split; [reflexivity|]. split.
      { split; [reflexivity|]. intros _. split; [reflexivity|]. split; [assumption|]. split; [lia|]. rewrite <- HN. exact NI. }
      assert (NM : newest 64 (acc ++ [seq]) = r_hi r) by (rewrite newest_perm; lia).
      unfold LInv. cbn [r_hi r_bitmap r_oseq esp_state_save s_oseq s_hi s_bitmap].
      split; [assumption|]. split; [|split; [lia|split; [|split; [|split; [assumption|repeat split]]]]].
      * split; [apply Z.lor_nonneg; split; [lia|apply Z.pow_nonneg; lia]|].
        apply bits_bound; [lia|apply Z.lor_nonneg; split; [lia|apply Z.pow_nonneg; lia]|].
        intros i Hi. rewrite Z.lor_spec, Z.pow2_bits_false by lia. rewrite (testbit_high _ 64) by lia. reflexivity.
      * intros i Hi. rewrite Z.lor_spec, in_app_iff. cbn [In].
        destruct (Z.eq_dec i (r_hi r - seq)) as [-> |D]; [intros _; right; left; lia|].
        rewrite Z.pow2_bits_false by lia. rewrite orb_false_r. intros H. left. apply HT1; assumption.
      * intros i Hi. rewrite Z.lor_spec, in_app_iff. cbn [In].
        destruct (Z.eq_dec i (r_hi r - seq)) as [-> |D].
        -- rewrite Z.pow2_bits_true by lia. rewrite orb_true_r. reflexivity.
        -- intros [H|[H|[]]]; [|lia]. rewrite HT2; [reflexivity|assumption|assumption].
  - cbn [obind negb]. assert (NI : ~ In seq acc) by (intros NI; apply (newest_in 64) in NI; lia).
    destruct a; [|apply REJ; [intros (X & _); discriminate|reflexivity]].
    cbn [negb]. unfold esp_replay_commit. destruct (seq <=? r_hi r) eqn:E2; [lia|]. cbn [obind].
    assert (EU : u32 (seq - r_hi r) = seq - r_hi r) by (unfold u32; rewrite Z.mod_small; lia).
    rewrite EU. eexists _, true. split; [reflexivity|]. split.
    { split; [reflexivity|]. intros _. split; [reflexivity|]. split; [assumption|]. split; [lia|]. intros _. exact NI. }
    assert (NM : newest 64 (acc ++ [seq]) = seq) by (rewrite newest_perm; lia).
    unfold LInv. cbn [r_hi r_bitmap r_oseq esp_state_save s_oseq s_hi s_bitmap].
    split; [lia|]. unfold ESP_REPLAY_WIN.
    destruct (Z.ltb_spec (seq - r_hi r) 64) as [D|D].
    + split; [|split; [lia|split; [|split; [|split; [assumption|repeat split]]]]].
      * assert (0 <= Z.lor (u64 (Z.shiftl (r_bitmap r) (seq - r_hi r))) 1).
        { apply Z.lor_nonneg. split; [|lia]. unfold u64. apply Z.mod_pos_bound. reflexivity. }
        split; [assumption|]. apply bits_bound; [lia|assumption|]. intros i Hi. rewrite Z.lor_spec.
        change (Z.testbit 1 i) with (Z.testbit (2 ^ 0) i). rewrite Z.pow2_bits_false by lia.
        unfold u64. change 18446744073709551616 with (2 ^ 64). rewrite Z.mod_pow2_bits_high by lia. reflexivity.
      * intros i Hi. rewrite Z.lor_spec, testbit_u64, Z.shiftl_spec, in_app_iff by lia. cbn [In].
        destruct (Z.eq_dec i 0) as [-> |D0]; [intros _; right; left; lia|].
        change (Z.testbit 1 i) with (Z.testbit (2 ^ 0) i). rewrite Z.pow2_bits_false, orb_false_r by lia.
        destruct (Z.ltb_spec i (seq - r_hi r)) as [Q|Q].
        -- rewrite Z.testbit_neg_r by lia. discriminate.
        -- intros H. apply HT1 in H; [|lia]. left. replace (r_hi r - (i - (seq - r_hi r))) with (seq - i) in H by lia. exact H.
      * intros i Hi. rewrite Z.lor_spec, testbit_u64, Z.shiftl_spec, in_app_iff by lia. cbn [In].
        destruct (Z.eq_dec i 0) as [-> |D0]; [intros _; apply orb_true_r|].
        intros [H|[H|[]]]; [|lia]. pose proof H as H9. apply (newest_in 64) in H9.
        rewrite HT2; [reflexivity|lia|]. replace (r_hi r - (i - (seq - r_hi r))) with (seq - i) by lia. exact H.
    + split; [lia|]. split; [lia|]. split; [|split; [|split; [assumption|repeat split]]].
      * intros i Hi. rewrite in_app_iff. cbn [In].
        destruct (Z.eq_dec i 0) as [-> |D0]; [intros _; right; left; lia|].
        change (Z.testbit 1 i) with (Z.testbit (2 ^ 0) i). rewrite Z.pow2_bits_false by lia. discriminate.
      * intros i Hi. rewrite in_app_iff. cbn [In]. destruct (Z.eq_dec i 0) as [-> |D0]; [reflexivity|].
        intros [H|[H|[]]]; [|lia]. apply (newest_in 64) in H. lia.
Qed.

(** What each step of a life may produce, given what was accepted and sent before. *)
Definition out_ok (acc sent : list Z) (e : life_ev) (o : life_out) : Prop :=
  match e with
  | LRx c a => exists v, rx_verdict acc c a v /\ o = if v then OAccepted c else ONothing
  | LTx => if newest 0 sent =? 4294967295 then o = ONothing else o = OSent (newest 0 sent + 1)
  | LRestart => o = ONothing
  end.

Lemma life_step_ok st acc sent e : LInv st acc sent -> life_wf e ->
  exists st' o, life_step st e = Some (st', o) /\ out_ok acc sent e o /\
    LInv st' (acc ++ life_accepted [o]) (sent ++ life_sent [o]).
Proof.
  intros HI HW. destruct st as [r nv]. destruct e as [c a| |]; cbn [life_step].
  - destruct (weak_step r nv acc sent c a HI HW) as (r' & v & E & HV & HI'). rewrite E. cbn [obind].
    eexists _, _. split; [reflexivity|]. split; [exists v; split; [assumption|reflexivity]|].
    destruct v; cbn; rewrite ?app_nil_r; exact HI'.
  - pose proof HI as (HH & HB & HN & HT1 & HT2 & (HO & HO2) & HV). unfold esp_next_oseq.
    destruct (Z.eq_dec (r_oseq r) 4294967295) as [M|M].
    + rewrite M. change (u32 (4294967295 + 1)) with 0. cbn [Z.eqb]. change (u32 (0 - 1)) with 4294967295.
      eexists _, _. split; [reflexivity|]. cbn [out_ok]. rewrite <- HO2, M. split; [reflexivity|].
      cbn. rewrite !app_nil_r. rewrite <- M. destruct r; exact HI.
    + assert (E : u32 (r_oseq r + 1) = r_oseq r + 1) by (unfold u32; rewrite Z.mod_small; lia).
      rewrite E. destruct (Z.eqb_spec (r_oseq r + 1) 0) as [E0|E0]; [lia|].
      eexists _, _. split; [reflexivity|]. cbn [out_ok]. rewrite <- HO2.
      destruct (Z.eqb_spec (r_oseq r) 4294967295); [lia|]. split; [reflexivity|].
      unfold LInv. cbn [life_accepted life_sent flat_map app r_hi r_bitmap r_oseq esp_state_save s_oseq s_hi s_bitmap].
      rewrite app_nil_r, newest_perm. repeat split; try assumption; try apply HH; try apply HB; try lia.
  - pose proof HI as (HH & HB & HN & HT1 & HT2 & HO & HV).
    eexists _, _. split; [reflexivity|]. split; [reflexivity|]. cbn. rewrite !app_nil_r.
    destruct nv as [s|]; cbn [esp_state_restore].
    + destruct HV as (V1 & V2 & V3). rewrite V1, V2, V3. cbn [r_hi r_bitmap r_oseq].
      assert (U : 0 <= u32 (r_bitmap r) < 2 ^ 32) by (apply Z.mod_pos_bound; lia).
      assert (TL : forall i, 0 <= i < 32 -> Z.testbit (u32 (r_bitmap r)) i = Z.testbit (r_bitmap r) i).
      { intros i Hi. unfold u32. change 4294967296 with (2 ^ 32). apply Z.mod_pow2_bits_low. lia. }
      split; [assumption|]. split; [change (2 ^ 64) with 18446744073709551616; change (2 ^ 32) with 4294967296 in U; lia|].
      split; [assumption|]. split; [|split; [|split; [assumption|]]].
      * intros i Hi. destruct (Z.ltb_spec i 32); [rewrite TL by lia; apply HT1; assumption|].
        rewrite (testbit_high _ 32) by lia. discriminate.
      * intros i Hi. rewrite TL by lia. apply HT2. assumption.
      * repeat split. unfold u32. rewrite Z.mod_mod by lia. reflexivity.
    + destruct HV as [-> ->]. destruct EInv_init as (A1 & A2 & A3 & A4).
      split; [assumption|]. split; [assumption|]. split; [assumption|]. split; [intros i Hi; apply A4; assumption|].
      split; [intros i Hi; apply A4; lia|]. cbn. repeat split; lia.
Qed.

(** C29 with restarts, the part that holds: every decision along a life with
    arbitrary restarts is defined; anything fresh is accepted; whatever is
    accepted is authentic, inside the window, and, if it lies in the newest half
    (32) of the window, was never accepted before -- restarts included.  And the
    numbers sent count up from 1 and stop at 2^32-1 (out_ok, LTx). *)
Theorem esp_life_partial : forall evs, Forall life_wf evs ->
  exists os, life (esp_replay_init, None) evs = Some os /\ length os = length evs /\
    forall e1 e e2 o1 o o2, evs = e1 ++ e :: e2 -> os = o1 ++ o :: o2 -> length o1 = length e1 ->
      out_ok (life_accepted o1) (life_sent o1) e o.
Proof.
  assert (G : forall evs st acc sent, Forall life_wf evs -> LInv st acc sent ->
    exists os, life st evs = Some os /\ length os = length evs /\
      forall e1 e e2 o1 o o2, evs = e1 ++ e :: e2 -> os = o1 ++ o :: o2 -> length o1 = length e1 ->
        out_ok (acc ++ life_accepted o1) (sent ++ life_sent o1) e o).
  { induction evs as [|e evs IH]; intros st acc sent HW HI.
    - exists []. split; [reflexivity|]. split; [reflexivity|]. intros e1 e e2 o1 o o2 E. destruct e1; discriminate.
    - inversion HW as [|? ? W1 W2]; subst.
      destruct (life_step_ok st acc sent e HI W1) as (st' & o & E & HO & HI').
      destruct (IH st' _ _ W2 HI') as (os & EO & EL & EX).
      exists (o :: os). cbn [life]. rewrite E. cbn [obind]. rewrite EO. cbn [obind].
      split; [reflexivity|]. split; [cbn; rewrite EL; reflexivity|].
      intros [|x e1] e0 e2 [|y o1] o0 o2 Q1 Q2 Q3; try discriminate; cbn in Q1, Q2.
      + assert (e0 = e) by congruence. assert (o0 = o) by congruence. subst. cbn. rewrite !app_nil_r. assumption.
      + assert (y = o) by congruence. assert (evs = e1 ++ e0 :: e2) by congruence. assert (os = o1 ++ o0 :: o2) by congruence.
        cbn in Q3. specialize (EX e1 e0 e2 o1 o0 o2 H0 H1 ltac:(congruence)).
        change (y :: o1) with ([y] ++ o1). unfold life_accepted, life_sent in *. rewrite !flat_map_app, !app_assoc.
        subst y. exact EX. }
  intros evs HW. apply (G evs (esp_replay_init, None) [] [] HW).
  destruct EInv_init as (A1 & A2 & A3 & A4). unfold LInv.
  split; [assumption|]. split; [assumption|]. split; [assumption|]. split; [intros i Hi; apply A4; assumption|].
  split; [intros i Hi; apply A4; lia|]. cbn. repeat split; lia.
Qed.

(** C41.  Outbound sequence numbers of an SA: along any life, restarts included,
    the k-th packet sent carries number k -- so no number (hence no AES-GCM IV
    derived from it) is ever used twice, and none exceeds 2^32-1. *)
Theorem esp_sent_never_repeats : forall evs os, Forall life_wf evs ->
  life (esp_replay_init, None) evs = Some os ->
  life_sent os = map Z.of_nat (seq 1 (length (life_sent os))) /\ NoDup (life_sent os) /\
  (forall s, In s (life_sent os) -> 1 <= s <= 4294967295).
Proof.
  intros evs os HW EL. destruct (esp_life_partial evs HW) as (os' & E1 & E2 & E3).
  assert (os' = os) by congruence. subst os'.
  assert (NS : forall k, newest 0 (map Z.of_nat (seq 1 k)) = Z.of_nat k).
  { induction k as [|k IH]; [reflexivity|]. rewrite seq_S, map_app. cbn [map plus]. rewrite newest_perm, IH. lia. }
  assert (PRE : forall o1 o2, os = o1 ++ o2 -> life_sent o1 = map Z.of_nat (seq 1 (length (life_sent o1))) /\
    Z.of_nat (length (life_sent o1)) <= 4294967295).
  { induction o1 as [|o o1 IH] using rev_ind; intros o2 Q; [cbn; split; [reflexivity|lia]|].
    rewrite <- app_assoc in Q. cbn in Q. destruct (IH _ Q) as [I1 I2].
    unfold life_sent in *. rewrite flat_map_app. cbn [flat_map]. rewrite app_nil_r.
    assert (X : exists e1 e e2, evs = e1 ++ e :: e2 /\ length o1 = length e1).
    { assert (length o1 < length evs)%nat by (rewrite <- E2, Q, app_length; cbn; lia).
      exists (firstn (length o1) evs), (nth (length o1) evs LTx), (skipn (S (length o1)) evs).
      split; [|rewrite firstn_length; lia].
      clear - H. revert H. generalize (length o1). induction evs as [|e evs IH]; intros n Hn; cbn in Hn; [lia|].
      destruct n; [reflexivity|]. cbn. f_equal. apply IH. lia. }
    destruct X as (e1 & e & e2 & Q1 & Q2). pose proof (E3 e1 e e2 o1 o o2 Q1 Q Q2) as HO.
    destruct e as [c a| |]; cbn [out_ok] in HO.
    - destruct HO as (v & _ & ->). destruct v; rewrite app_nil_r; split; assumption.
    - unfold life_sent in HO. rewrite I1, NS in HO.
      set (k := length (flat_map (fun o => match o with OSent s => [s] | _ => [] end) o1)) in *.
      destruct (Z.eqb_spec (Z.of_nat k) 4294967295) as [K|K]; subst o.
      + rewrite app_nil_r. split; [|fold k; assumption]. exact I1.
      + rewrite app_length. fold k. cbn [length]. rewrite Nat.add_1_r, seq_S, map_app. cbn [map plus].
        split; [rewrite I1; f_equal; f_equal; lia|lia].
    - subst o. rewrite app_nil_r. split; assumption. }
  destruct (PRE os [] ltac:(rewrite app_nil_r; reflexivity)) as [P1 P2].
  split; [exact P1|]. split.
  - rewrite P1. apply Injective_map_NoDup; [intros x y; lia|apply seq_NoDup].
  - intros s H. rewrite P1, in_map_iff in H. destruct H as (n & <- & H). apply in_seq in H. lia.
Qed.

Print Assumptions esp_window_exact.
Print Assumptions esp_no_replay.
Print Assumptions esp_unauthentic_is_harmless.
Print Assumptions esp_no_replay_across_restart_refuted.
Print Assumptions esp_life_partial.
Print Assumptions esp_sent_never_repeats.

(** Non-vacuity: reordering, a jump, a replay, an old packet, a forgery. *)
Example ex_esp_run : outcomes esp_inbound esp_replay_init
   [(3, true); (1, true); (3, true); (100, false); (100, true); (37, true); (36, true); (100, true); (4000, true); (99, true)]
 = Some [(3, true, true); (1, true, true); (3, true, false); (100, false, false); (100, true, true);
         (37, true, true); (36, true, false); (100, true, false); (4000, true, true); (99, true, false)].
Proof. vm_compute. reflexivity. Qed.
Example ex_life : life (esp_replay_init, None) [LTx; LRx 70 true; LRestart; LTx; LRx 70 true; LRx 71 true]
 = Some [OSent 1; OAccepted 70; ONothing; OSent 2; ONothing; OAccepted 71].
Proof. vm_compute. reflexivity. Qed.
