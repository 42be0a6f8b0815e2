(** The packet FIFO seen as a queue of byte strings, for the datagram sockets. *)
From Verif Require Import Base Fifo FifoProofs FifoPush FifoMore FifoHist FifoProps.

(** The packets a walk over the buffer visits, oldest first. *)
Definition contents (f : fifo) : list (list Z) :=
  match fifo_walk f with Some (_, es) => map en_data es | None => [] end.
(** The positions in which a push is known to discard what is queued (C01: the free
    pointer lies in the last three bytes of the storage, or the new packet would
    make the buffer exactly full). *)
Definition unlucky (f : fifo) (d : list Z) : Prop := hz_exact f (zlen d) = true \/ hz_overwrite f = true.
(** [f'] is [f] after an attempt to append [d]. *)
Definition enqueued (f : fifo) (d : list Z) (f' : fifo) : Prop :=
  (fifo_can_push_len f (zlen d) = false /\ f' = f) \/
  (fifo_can_push_len f (zlen d) = true /\ contents f' = contents f ++ [d]) \/
  (fifo_can_push_len f (zlen d) = true /\ unlucky f d /\ (contents f' = [] \/ contents f' = [d])).

Definition fq (open : bool) (size : Z) (f : fifo) (q : list (list Z)) : Prop :=
  if open then (exists es, WF f es /\ map e_data es = q) /\ f_size f = size
  else f = fifo_init [] 0 /\ q = [].

Lemma WF_contents f es : WF f es -> contents f = map e_data es.
Proof.
  intros H. unfold contents. destruct (fifo_walk_spec _ _ H) as (g & -> & _). rewrite map_map. apply map_ext. reflexivity.
Qed.
Lemma fq_contents o s f q : fq o s f q -> contents f = q.
Proof.
  unfold fq. destruct o; [intros [(es & W & <-) _]; apply WF_contents; assumption|].
  intros [-> ->]. reflexivity.
Qed.
Lemma fq_fresh n size : size mod 4 = 0 -> DESC <= size <= 2^31 -> Z.of_nat n = size -> fq true size (fifo_init (repeat 0 n) size) [].
Proof.
  intros. split; [|reflexivity]. exists []. split; [|reflexivity]. apply WF_init; try assumption.
  unfold zlen. rewrite repeat_length. assumption.
Qed.
Lemma push_can f es d : WF f es -> DESC + zlen d < 2^32 -> forall f' r, fifo_push f d = Some (f', r) ->
  (r = 0 <-> fifo_can_push_len f (zlen d) = true).
Proof.
  intros HW HN f' r EP. pose proof (zlen_nonneg d).
  destruct (fifo_push_spec f es d HW HN) as (f2 & r2 & EP' & HS). rewrite EP in EP'. injection EP' as <- <-.
  pose proof EP as EP2. rewrite fifo_push_place in EP2.
  rewrite (WF_place_can f es) by (first [assumption|apply zlen_nonneg]).
  assert (HU : u32 (DESC + zlen d) = DESC + zlen d).
  { unfold u32. apply Z.mod_small. unfold DESC in *. lia. }
  rewrite HU in EP2. destruct (place f (DESC + zlen d)) as [[p hw]|].
  - split; [reflexivity|]. intros _. destruct (mwrite (f_data f) p _) as [m1|]; [|discriminate]. cbn [obind] in EP2.
    destruct (mwrite m1 _ d) as [m2|]; [|discriminate]. cbn [obind] in EP2.
    destruct (p + DESC + zlen d =? f_size f); injection EP2 as _ <-; reflexivity.
  - injection EP2 as _ <-. split; discriminate.
Qed.
Lemma push_abs_cases f es d p : map e_data (push_abs f es (new_ent p d)) = map e_data es ++ [d] \/
  (unlucky f d /\ (map e_data (push_abs f es (new_ent p d)) = [] \/ map e_data (push_abs f es (new_ent p d)) = [d])).
Proof.
  unfold push_abs, unlucky. change (e_len (new_ent p d)) with (zlen d).
  destruct (hz_exact f (zlen d)) eqn:E1; [right; auto|]. destruct (hz_overwrite f) eqn:E2; [right; auto|].
  left. rewrite map_app. reflexivity.
Qed.

Lemma fq_push o s f q d : fq o s f q -> DESC + zlen d < 2^32 ->
  exists f' r q', fifo_push f d = Some (f', r) /\ fq o s f' q' /\ enqueued f d f' /\ (r = 0 \/ r = -1) /\
    (r = 0 <-> fifo_can_push_len f (zlen d) = true) /\
    ((r = -1 /\ f' = f /\ q' = q) \/ (r = 0 /\ (q' = q ++ [d] \/ (unlucky f d /\ (q' = [] \/ q' = [d]))))).
Proof.
  destruct o; intros H HN.
  - destruct H as [(es & W & EQ) HS]. subst q. destruct (fifo_push_spec f es d W HN) as (f' & r & E & C).
    pose proof (push_can _ _ _ W HN _ _ E) as PC.
    destruct C as [[-> ->]|(-> & p & W' & S' & _)].
    + exists f, (-1), (map e_data es). split; [assumption|]. split; [split; [exists es; auto|assumption]|].
      split; [left; split; [|reflexivity]; destruct (fifo_can_push_len f (zlen d)); [exfalso; destruct PC as [_ PC]; discriminate (PC eq_refl)|reflexivity]|].
      split; [auto|]. split; [assumption|]. left. auto.
    + exists f', 0, (map e_data (push_abs f es (new_ent p d))). split; [assumption|].
      split; [split; [eexists; split; [exact W'|reflexivity]|congruence]|].
      assert (PT : fifo_can_push_len f (zlen d) = true) by (apply PC; reflexivity).
      pose proof (push_abs_cases f es d p) as CS.
      split; [|split; [auto|split; [assumption|right; split; [reflexivity|exact CS]]]].
      unfold enqueued. rewrite (WF_contents _ _ W), (WF_contents _ _ W').
      destruct CS as [CS|CS]; [right; left; auto|right; right; auto].
  - destruct H as [-> ->]. exists (fifo_init [] 0), (-1), []. pose proof (zlen_nonneg d) as ZN.
    assert (HU : u32 (DESC + zlen d) = DESC + zlen d) by (unfold u32; apply Z.mod_small; unfold DESC in *; lia).
    assert (CP : fifo_can_push_len (fifo_init [] 0) (zlen d) = false).
    { unfold fifo_can_push_len. rewrite HU. cbn [f_size fifo_init]. unfold DESC in *. destruct (Z.ltb_spec 0 (16 + zlen d)); [reflexivity|lia]. }
    assert (EP : fifo_push (fifo_init [] 0) d = Some (fifo_init [] 0, -1)).
    { unfold fifo_push. rewrite HU. unfold DESC in *.
      change (push_space _ _ _ _) with 0. destruct (Z.ltb_spec 0 (16 + zlen d)); [reflexivity|lia]. }
    split; [assumption|]. split; [split; reflexivity|]. split; [left; auto|]. split; [auto|].
    split; [rewrite CP; split; discriminate|]. left. auto.
Qed.

Lemma fq_len o s f q : fq o s f q -> exists f' n, fifo_len f = (f', n) /\ fq o s f' q /\ (n = 0 <-> q = []).
Proof.
  destruct o.
  - intros [(es & W & EQ) HS]. subst q. destruct es as [|x es].
    + assert (E : fifo_is_empty f = true) by (apply (is_empty_spec _ _ W); reflexivity).
      exists f, 0. unfold fifo_len, fifo_align_tail. rewrite E. rewrite E. split; [reflexivity|].
      split; [split; [exists []; auto|assumption]|tauto].
    + destruct (align_tail_spec _ _ _ W) as (t & w & HT & Et & W' & HA).
      set (g := set_tail_wrap f t w) in *. assert (E : fifo_is_empty g = false).
      { destruct (fifo_is_empty g) eqn:E; [apply (is_empty_spec _ _ W') in E; discriminate|reflexivity]. }
      unfold fifo_len. rewrite HT, E. eexists g, _. split; [reflexivity|].
      split; [split; [exists (x :: es); auto|exact HS]|]. split; [|discriminate]. intros N. exfalso.
      destruct W' as ((Hm & Hs & Hd & Hh & Ht) & _ & _). unfold fifo_is_empty in E. unfold DESC in *.
      destruct HA as [[Hw Hc]|(es1 & es2 & EQ & NE & [HB|HC])].
      * apply chain_le in Hc. rewrite Hw in E. destruct (Z.eqb_spec (f_tail g) (f_head g)); [lia|].
        destruct (Z.ltb_spec (f_head g) (f_tail g)); lia.
      * destruct HB as (Hn & Hb1 & Hb2 & Hb3 & (e1 & Hc1 & Ha & _) & _).
        apply chain_nonempty_end in Hc1; [|assumption]. pose proof (align4_prop e1). unfold DESC in *.
        destruct (Z.eqb_spec (f_tail g) (f_head g)); [lia|].
        destruct (Z.ltb_spec (f_head g) (f_tail g)); [|lia]. destruct (Z.ltb_spec 0 (f_hwrap g)); lia.
      * destruct HC as (Hn & Hlt & _). destruct (Z.eqb_spec (f_tail g) (f_head g)); [lia|].
        destruct (Z.ltb_spec (f_head g) (f_tail g)); [|lia]. destruct (Z.ltb_spec 0 (f_hwrap g)); lia.
  - intros [-> ->]. exists (fifo_init [] 0), 0. split; [reflexivity|]. split; [split; reflexivity|tauto].
Qed.

Lemma fq_peek o s f q : fq o s f q -> exists f' p, fifo_peek f = (f', p) /\ fq o s f' q /\
  ((q = [] /\ p = None) \/
   exists pos d q' fl tm, q = d :: q' /\ p = Some pos /\ 0 <= fl < 2^32 /\ 0 <= tm < 2^32 /\
     load_desc f' pos = Some {| d_pos := pos; d_len := zlen d; d_flags := fl; d_time := tm |} /\
     load_entry f' pos = Some {| en_flags := fl; en_time := tm; en_data := d |} /\
     mread (f_data f') (pos + DESC) (zlen d) = Some d /\
     (exists f2, fifo_pop f' = Some (f2, Some pos) /\ fq o s f2 q') /\
     forall d2, zlen d2 = zlen d -> exists f3, fifo_update f' pos fl tm d2 = Some f3 /\ fq o s f3 (d2 :: q') /\
       (exists f4, fifo_pop f3 = Some (f4, Some pos) /\ fq o s f4 q')).
Proof.
  destruct o.
  - intros [(es & W & EQ) HS]. subst q. destruct (fifo_peek_spec _ _ W) as (f' & EP & W' & Sz & Dt & _).
    exists f', (match es with [] => None | x :: _ => Some (e_pos x) end). split; [assumption|].
    split; [split; [exists es; auto|congruence]|]. destruct es as [|x es]; [left; auto|right].
    exists (e_pos x), (e_data x), (map e_data es), (e_flags x), (e_time x).
    pose proof (load_desc_spec _ _ x W' (or_introl eq_refl)) as LD.
    pose proof (load_entry_spec _ _ x W' (or_introl eq_refl)) as LE.
    pose proof W' as (_ & _ & MM). inversion MM as [|? ? (M1 & M2 & M3 & M4) MR]. subst.
    split; [reflexivity|]. split; [reflexivity|]. split; [assumption|]. split; [assumption|]. split; [exact LD|]. split; [exact LE|]. split; [exact M2|].
    destruct (fifo_pop_cons _ _ _ W') as (f2 & P2 & W2 & _ & S2 & _).
    split; [exists f2; split; [assumption|]; split; [exists es; auto|congruence]|].
    intros d2 L2. destruct (fifo_update_spec f' [] x es (e_flags x) (e_time x) d2 W' L2) as (f3 & U3 & W3 & S3 & _).
    cbn [app] in W3. exists f3. split; [assumption|].
    split; [split; [eexists; split; [exact W3|reflexivity]|congruence]|].
    destruct (fifo_pop_cons _ _ _ W3) as (f4 & P4 & W4 & _ & S4 & _). exists f4.
    split; [exact P4|]. split; [exists es; auto|congruence].
  - intros [-> ->]. exists (fifo_init [] 0), None. split; [reflexivity|]. split; [split; reflexivity|]. left; auto.
Qed.

Lemma fq_count s f q : fq true s f q -> 16 * zlen q <= s.
Proof.
  intros [(es & W & <-) <-]. pose proof (WF_count _ _ W). unfold zlen, DESC in *. rewrite map_length. lia.
Qed.
