(** C76: what is sent through ESP arrives, exactly, and at most once. *)
From Verif Require Import Base Checksum ChecksumProps Arp Forward ForwardSpec ForwardStep EspReplay EspReplayProps ReplaySpec Esp EspSpec EspWire EspProofs EspTrip.

Lemma check_commit r q : esp_replay_check r q = Some true -> exists r', esp_replay_commit r q = Some r'.
Proof.
  unfold esp_replay_check, esp_replay_commit. intros H. destruct (q =? 0); [discriminate|].
  match type of H with (if ?b then _ else _) = _ => destruct b end; [discriminate|].
  destruct (q <=? r_hi r); [|eauto]. destruct (shl1_u64 (u32 (r_hi r - q))); [cbn [obind]; eauto|discriminate].
Qed.
Lemma wrap_pick c rng o1 so o2 ip outs' r : datagram ip -> zlen ip <= esp_room -> chosen any_spi o1 so (src_of ip) (dst_of ip) ->
  esp_wrap c rng (o1 ++ so :: o2) ip = Some (outs', r) ->
  exists so', outs' = o1 ++ so' :: o2 /\ wrap_sa c rng ip so = Some (so', r).
Proof.
  intros (D1 & D2 & D3 & D4) RM (_ & HC & HN) H. unfold esp_wrap in H.
  destruct (Z.ltb_spec esp_room (zlen ip)); [lia|].
  replace ((ihl_bytes (zget ip 0) <? 20) || (zlen ip <? ihl_bytes (zget ip 0))) with false in H by lia.
  fold (src_of ip) in H. fold (dst_of ip) in H.
  destruct (wrap_sa c rng ip so) as [[so' r']|] eqn:EW.
  - rewrite (with_first_hit _ _ _ o1 so o2 so' r' eq_refl) in H; auto.
    + cbn [obind] in H. injection H as <- <-. eauto.
    + apply out_match_iff. exact HC.
    + intros x Hx. apply not_true_is_false. intros T. apply out_match_iff in T. apply (HN x Hx). split; [exact I|exact T].
  - exfalso. assert (X : with_first (out_match (src_of ip) (dst_of ip)) (wrap_sa c rng ip) (o1 ++ so :: o2) = None).
    { clear H. induction o1 as [|x o1 IH]; cbn [app with_first].
      - replace (out_match (src_of ip) (dst_of ip) so) with true by (symmetry; apply out_match_iff; exact HC). rewrite EW. reflexivity.
      - replace (out_match (src_of ip) (dst_of ip) x) with false.
        + rewrite IH; [reflexivity|]. intros y Hy. apply HN. right. exact Hy.
        + symmetry. apply not_true_is_false. intros T. apply out_match_iff in T. apply (HN x (or_introl eq_refl)). split; [exact I|exact T]. }
    rewrite X in H. discriminate.
Qed.

Lemma wrap_room c rng outs ip outs' r : esp_wrap c rng outs ip = Some (outs', r) -> zlen ip <= esp_room.
Proof. unfold esp_wrap. destruct (Z.ltb_spec esp_room (zlen ip)); [discriminate|auto]. Qed.

(** The association after any packet, sent or not: the next number, the same suite. *)
Lemma wrap_sa_next c rng ip s s' r : 0 <= r_oseq (sa_rep s) < 4294967295 -> wrap_sa c rng ip s = Some (s', r) ->
  same_suite s s' /\ sa_src s' = sa_src s /\ sa_dst s' = sa_dst s /\ (sa_ok s -> sa_ok s') /\
  r_oseq (sa_rep s') = r_oseq (sa_rep s) + 1 /\ esp_next_oseq (sa_rep s) = (sa_rep s', Some (r_oseq (sa_rep s) + 1)).
Proof.
  intros R H. unfold wrap_sa in H. destruct (esp_room <? zlen ip + 8 + iv_len (sa_enc s)); [discriminate|].
  destruct (esp_next_oseq (sa_rep s)) as [rp o] eqn:EO. pose proof EO as EO'.
  unfold esp_next_oseq, u32 in EO'. destruct (Z.eqb_spec ((r_oseq (sa_rep s) + 1) mod 4294967296) 0); [lia|].
  injection EO' as <- <-.
  rewrite Z.mod_small in * by lia.
  assert (s' = with_rep s (mkReplay (r_bitmap (sa_rep s)) (r_hi (sa_rep s)) (r_oseq (sa_rep s) + 1))) as ->.
  { repeat (match type of H with
            | (if ?b then _ else _) = _ => destruct b; [discriminate|]
            | match ?m with Some _ => _ | None => _ end = _ => destruct m
            | obind ?m _ = _ => destruct m; cbn [obind] in H; [|discriminate]
            end); congruence. }
  cbn [sa_rep with_rep r_oseq sa_src sa_dst]. split; [unfold same_suite; auto 10|]. split; [reflexivity|]. split; [reflexivity|].
  split; [|split; [reflexivity|reflexivity]].
  intros (O1 & O2 & O3 & O4 & O5 & O6). unfold sa_ok. cbn [sa_spi sa_preiv sa_rep sa_enc sa_auth sa_icv sa_ekey with_rep r_hi r_oseq].
  split; [assumption|]. split; [assumption|]. split; [assumption|]. split; [assumption|]. split; [lia|exact O6].
Qed.

Lemma chosen_same (sel : sa -> Prop) l s t src dst : same_suite s t -> sa_src t = sa_src s -> sa_dst t = sa_dst s -> (sel s -> sel t) ->
  chosen sel l s src dst -> chosen sel l t src dst.
Proof.
  intros (S1 & _) Hs Hd HS (C1 & (C2 & C3 & C4) & C5). split; [auto|]. split; [|exact C5].
  unfold covers. rewrite <- S1, Hs, Hd. auto.
Qed.
Lemma same_trans a b d : same_suite a b -> same_suite b d -> same_suite a d.
Proof. unfold same_suite. intuition congruence. Qed.

(** What every packet the association will see must satisfy. *)
Definition for_pair (o1 : list sa) (so : sa) (i1 : list sa) (si : sa) (ip : list Z) : Prop :=
  datagram ip /\ chosen any_spi o1 so (src_of ip) (dst_of ip) /\ chosen (has_spi (sa_spi so)) i1 si (src_of ip) (dst_of ip).

(** C76.  A datagram that one host seals with its association and another
    opens with the association of the same SPI, algorithms and keys is handed to
    the transport protocols exactly as it would have been without ESP (options
    removed as for any datagram), whatever link padding follows it, provided its
    number is inside the receiver's window. *)
Theorem esp_round_trip : forall c rng o1 so o2 i1 si i2 eth ip slack outs' w,
  crypto_ok c -> rng_ok rng -> zlen eth = 14 -> sa_ok so -> same_suite so si ->
  for_pair o1 so i1 si ip ->
  esp_wrap c rng (o1 ++ so :: o2) ip = Some (outs', WSend w) ->
  zlen (eth ++ w ++ slack) <= 1536 ->
  (sa_icv si = 0 \/ esp_replay_check (sa_rep si) (r_oseq (sa_rep so) + 1) = Some true) ->
  exists si' g, same_suite si si' /\ strip_options (eth ++ ip) = Some g /\
    esp_in c false (i1 ++ si :: i2) (eth ++ w ++ slack) = Some (i1 ++ si' :: i2, Some g).
Proof.
  intros c rng o1 so o2 i1 si i2 eth ip slack outs' w LC RN He OK SS (HD & HO & HI) HW MTU HR.
  destruct (wrap_pick c rng o1 so o2 ip outs' (WSend w) HD (wrap_room _ _ _ _ _ _ HW) HO HW) as (so' & -> & EW).
  assert (RO : 0 <= r_oseq (sa_rep so) < 4294967295).
  { pose proof OK as (_ & _ & _ & _ & R & _). destruct (Z.eqb_spec (r_oseq (sa_rep so)) 4294967295) as [E|]; [|lia].
    exfalso. unfold wrap_sa in EW. destruct (esp_room <? zlen ip + 8 + iv_len (sa_enc so)); [discriminate|].
    unfold esp_next_oseq in EW. rewrite E in EW. cbn in EW. discriminate. }
  destruct (wrap_sa_next c rng ip so so' (WSend w) RO EW) as (_ & _ & _ & _ & _ & NX).
  assert (SE : sealed c so (r_oseq (sa_rep so) + 1) ip w).
  { exists rng, so, so'. repeat (split; [solve [auto | unfold same_suite; auto 10]|]). lia. }
  destruct HI as (I1 & I2 & I3).
  assert (SV : spi_valid (sa_spi so) = true) by (apply spi_valid_iff; destruct OK as (_ & X & _); exact X).
  destruct (rx_sealed c so _ ip w eth slack (i1 ++ si :: i2) i1 si i2 LC SE HD He SS SV (fun _ => MTU) eq_refl (conj I1 I2) I3)
    as (g & EG & HA & _).
  exists (after si (r_oseq (sa_rep so) + 1)), g. split; [apply after_same|]. split; [exact EG|]. apply HA.
  destruct HR as [Z0|CK]; [left; exact Z0|right].
  destruct (check_commit _ _ CK) as (r & CM). eauto.
Qed.
Print Assumptions esp_round_trip.

(** With C19's description of what is delivered, in words of RFC 791 alone. *)
Theorem esp_delivers_the_datagram : forall c rng o1 so o2 i1 si i2 eth ip slack outs' w,
  crypto_ok c -> rng_ok rng -> zlen eth = 14 -> Forall byte eth -> sa_ok so -> same_suite so si ->
  for_pair o1 so i1 si ip -> wellformed (eth ++ ip) ->
  esp_wrap c rng (o1 ++ so :: o2) ip = Some (outs', WSend w) ->
  zlen (eth ++ w ++ slack) <= 1536 ->
  (sa_icv si = 0 \/ esp_replay_check (sa_rep si) (r_oseq (sa_rep so) + 1) = Some true) ->
  exists ins' g, esp_in c false (i1 ++ si :: i2) (eth ++ w ++ slack) = Some (ins', Some g) /\ delivered (eth ++ ip) g.
Proof.
  intros c rng o1 so o2 i1 si i2 eth ip slack outs' w LC RN He HB OK SS HP WF HW MTU HR.
  destruct (esp_round_trip c rng o1 so o2 i1 si i2 eth ip slack outs' w) as (si' & g & _ & EG & EI); auto.
  exists (i1 ++ si' :: i2), g. split; [exact EI|].
  destruct (strip_spec (eth ++ ip)) as (g' & EG' & D); [|exact WF|].
  - apply Forall_app. split; [exact HB|]. destruct HP as ((_ & _ & B & _) & _). exact B.
  - congruence.
Qed.
Print Assumptions esp_delivers_the_datagram.

(** ** Streams *)
Lemma tx_all_spec c o1 o2 : crypto_ok c -> forall l so outs' ws,
  sa_ok so -> r_oseq (sa_rep so) + zlen l < 4294967296 ->
  (forall rng ip, In (rng, ip) l -> rng_ok rng /\ datagram ip /\ chosen any_spi o1 so (src_of ip) (dst_of ip)) ->
  tx_all c (o1 ++ so :: o2) l = Some (outs', ws) ->
  forall i w, nth_error ws i = Some (WSend w) ->
  exists rng ip, nth_error l i = Some (rng, ip) /\ sealed c so (r_oseq (sa_rep so) + Z.of_nat i + 1) ip w.
Proof.
  intros LC. induction l as [|[rng ip] l IH]; intros so outs' ws OK RM HA H i w HN; cbn [tx_all] in H.
  - injection H as <- <-. destruct i; discriminate.
  - destruct (esp_wrap c rng (o1 ++ so :: o2) ip) as [[outs1 r]|] eqn:EW; [|discriminate]. cbn [obind] in H.
    destruct (tx_all c outs1 l) as [[outs2 rs]|] eqn:ET; [|discriminate]. cbn [obind] in H. injection H as <- <-.
    destruct (HA rng ip (or_introl eq_refl)) as (RN & HD & HO).
    destruct (wrap_pick c rng o1 so o2 ip outs1 r HD (wrap_room _ _ _ _ _ _ EW) HO EW) as (so' & -> & EW').
    assert (RO : 0 <= r_oseq (sa_rep so) < 4294967295).
    { rewrite zlen_cons in RM. pose proof (zlen_nonneg l). destruct OK as (_ & _ & _ & _ & R & _). lia. }
    destruct (wrap_sa_next c rng ip so so' r RO EW') as (SS & S1 & S2 & OK' & RQ & NX).
    destruct i as [|i]; cbn [nth_error] in HN.
    + exists rng, ip. split; [reflexivity|]. injection HN as ->. exists rng, so, so'.
      replace (r_oseq (sa_rep so) + Z.of_nat 0 + 1) with (r_oseq (sa_rep so) + 1) by lia.
      repeat (split; [solve [auto | unfold same_suite; auto 10]|]). lia.
    + destruct (IH so' outs2 rs) with (i := i) (w := w) as (rng' & ip' & E1 & (rg & s1 & s2 & Q1 & Q2 & Q3 & Q4)); auto.
      * rewrite zlen_cons in RM. lia.
      * intros rng' ip' Hin. destruct (HA rng' ip' (or_intror Hin)) as (X1 & X2 & X3). split; [exact X1|]. split; [exact X2|].
        eapply chosen_same; eauto.
      * exists rng', ip'. split; [exact E1|]. exists rg, s1, s2. split; [exact Q1|]. split; [exact Q2|].
        split; [eapply same_trans; eassumption|].
        replace (r_oseq (sa_rep so) + Z.of_nat (S i) + 1) with (r_oseq (sa_rep so') + Z.of_nat i + 1) by lia. exact Q4.
Qed.

Lemma seen_app i1 : forall o1 i2 o2, length i1 = length o1 -> seen (i1 ++ i2) (o1 ++ o2) = seen i1 o1 ++ seen i2 o2.
Proof.
  induction i1 as [|i i1 IH]; intros [|[x|] o1] i2 o2 H; cbn in *; try discriminate; [reflexivity| |]; rewrite IH by lia; reflexivity.
Qed.

(** C76, whole conversations: from two fresh ends, whatever the network does to
    the packets sent (losing, duplicating and reordering them), each frame that
    arrives is delivered, exactly as sent, if its packet was not delivered before
    and is fewer than 64 numbers older than the newest one delivered (or than
    64); and is dropped otherwise. *)
Theorem esp_exactly_once : forall c eth o1 so o2 i1 si i2 sends outs' ws arr fs,
  crypto_ok c -> zlen eth = 14 -> sa_ok so -> same_suite so si -> sa_icv si <> 0 ->
  sa_rep so = esp_replay_init -> sa_rep si = esp_replay_init -> zlen sends < 4294967296 ->
  (forall rng ip, In (rng, ip) sends -> rng_ok rng /\ for_pair o1 so i1 si ip) ->
  tx_all c (o1 ++ so :: o2) sends = Some (outs', ws) ->
  Forall2 (carries eth ws) arr fs ->
  exists ins' got, rx_all c (i1 ++ si :: i2) fs = Some (ins', got) /\ length got = length arr /\
    forall a1 i a2 g1 o g2, arr = a1 ++ i :: a2 -> got = g1 ++ o :: g2 -> length a1 = length g1 ->
      exists rng ip, nth_error sends i = Some (rng, ip) /\
        (fresh 64 64 (seen a1 g1) (Z.of_nat i + 1) -> exists g, o = Some g /\ strip_options (eth ++ ip) = Some g) /\
        (~ fresh 64 64 (seen a1 g1) (Z.of_nat i + 1) -> o = None).
Proof.
  intros c eth o1 so o2 i1 si i2 sends outs' ws arr fs LC He OK SS NZ RO RI LN HA HT HF.
  assert (TX := tx_all_spec c o1 o2 LC sends so outs' ws OK). rewrite RO in TX. cbn [r_oseq esp_replay_init] in TX.
  specialize (TX ltac:(lia)).
  assert (TX' := TX ltac:(intros rng ip Hin; destruct (HA rng ip Hin) as (X1 & X2 & X3 & _); auto) HT). clear TX.
  assert (SV : spi_valid (sa_spi so) = true) by (apply spi_valid_iff; destruct OK as (_ & X & _); exact X).
  assert (G : forall arr fs, Forall2 (carries eth ws) arr fs -> forall s acc, same_suite si s -> sa_src s = sa_src si -> sa_dst s = sa_dst si ->
    EInv (sa_rep s) acc ->
    exists ins' got, rx_all c (i1 ++ s :: i2) fs = Some (ins', got) /\ length got = length arr /\
    forall a1 i a2 g1 o g2, arr = a1 ++ i :: a2 -> got = g1 ++ o :: g2 -> length a1 = length g1 ->
      exists rng ip, nth_error sends i = Some (rng, ip) /\
        (fresh 64 64 (acc ++ seen a1 g1) (Z.of_nat i + 1) -> exists g, o = Some g /\ strip_options (eth ++ ip) = Some g) /\
        (~ fresh 64 64 (acc ++ seen a1 g1) (Z.of_nat i + 1) -> o = None)).
  { clear arr fs HF. intros arr fs HF. induction HF as [|i f arr fs HC HF IH]; intros s acc S1 S2 S3 HI.
    - exists (i1 ++ s :: i2), []. split; [reflexivity|]. split; [reflexivity|]. intros [|? ?] ? ? ? ? ? X; discriminate.
    - destruct HC as (w & slack & EN & -> & MTU). destruct (TX' i w EN) as (rng & ip & ES & SE).
      destruct (HA rng ip (nth_error_In _ _ ES)) as (_ & HD & _ & HI0).
      assert (HI' : chosen (has_spi (sa_spi so)) i1 s (src_of ip) (dst_of ip)).
      { eapply chosen_same; [exact S1|exact S2|exact S3| |exact HI0]. unfold has_spi. destruct S1 as (-> & _). auto. }
      destruct HI' as (I1 & I2 & I3).
      destruct (rx_sealed c so _ ip w eth slack (i1 ++ s :: i2) i1 s i2 LC SE HD He (same_trans _ _ _ SS S1) SV (fun _ => MTU) eq_refl (conj I1 I2) I3)
        as (g & EG & HAcc & HRej).
      set (q := 0 + Z.of_nat i + 1) in *. assert (QR : 1 <= q < 4294967296) by (destruct SE as (? & ? & ? & _ & _ & _ & _ & _ & X); exact X).
      assert (NZs : sa_icv s <> 0) by (destruct S1 as (_ & _ & _ & _ & _ & <-); exact NZ).
      destruct (esp_step (sa_rep s) acc q true HI ltac:(lia)) as (r' & v & EI & HV & HI2).
      assert (FR : v = true <-> fresh 64 64 acc q) by (rewrite HV; intuition lia).
      unfold esp_inbound in EI. destruct (esp_replay_check (sa_rep s) q) as [[|]|] eqn:CK; [| |discriminate]; cbn [obind negb] in EI.
      + destruct (esp_replay_commit (sa_rep s) q) as [rr|] eqn:CM; [|discriminate]. cbn [obind] in EI.
        assert (rr = r' /\ v = true) as (-> & ->) by (split; congruence).
        assert (AF : after s q = with_rep s r') by (unfold after; rewrite CM; destruct (Z.eqb_spec (sa_icv s) 0); [contradiction|reflexivity]).
        specialize (HAcc (or_intror (ex_intro _ r' (conj eq_refl eq_refl)))).
        destruct (after_same s q) as (A1 & A2 & A3).
        destruct (IH (after s q) (acc ++ [q])) as (ins' & got & ER & EL & EX); [eapply same_trans; eassumption|congruence|congruence| |].
        { rewrite AF. exact HI2. }
        exists ins', (Some g :: got). cbn [rx_all]. rewrite HAcc. cbn [obind]. rewrite ER. cbn [obind]. split; [reflexivity|].
        split; [cbn [length]; lia|]. intros [|j a1] i' a2 [|p g1] o g2 EA EGo ELn; cbn [app length] in *; try discriminate.
        * injection EA as -> ->. injection EGo as <- <-. exists rng, ip. split; [exact ES|]. cbn [seen]. rewrite app_nil_r.
          replace (Z.of_nat i' + 1) with q by (unfold q; lia). split; [intros _; eauto|].
          intros NF. exfalso. apply NF. apply FR. reflexivity.
        * injection EA as -> ->. injection EGo as <- ->. destruct (EX a1 i' a2 g1 o g2 eq_refl eq_refl ltac:(lia)) as (rng' & ip' & E1 & E2 & E3).
          exists rng', ip'. split; [exact E1|]. cbn [seen]. replace (Z.of_nat j + 1) with q by (unfold q; lia).
          rewrite <- app_assoc in E2, E3. split; [exact E2|exact E3].
      + assert (r' = sa_rep s /\ v = false) as (-> & ->) by (split; congruence).
        specialize (HRej NZs eq_refl).
        destruct (IH s acc) as (ins' & got & ER & EL & EX); auto.
        exists ins', (None :: got). cbn [rx_all]. rewrite HRej. cbn [obind]. rewrite ER. cbn [obind]. split; [reflexivity|].
        split; [cbn [length]; lia|]. intros [|j a1] i' a2 [|p g1] o g2 EA EGo ELn; cbn [app length] in *; try discriminate.
        * injection EA as -> ->. injection EGo as <- <-. exists rng, ip. split; [exact ES|]. cbn [seen]. rewrite app_nil_r.
          replace (Z.of_nat i' + 1) with q by (unfold q; lia). split; [|reflexivity].
          intros NF. exfalso. apply FR in NF. discriminate.
        * injection EA as -> ->. injection EGo as <- ->. destruct (EX a1 i' a2 g1 o g2 eq_refl eq_refl ltac:(lia)) as (rng' & ip' & E1 & E2 & E3).
          exists rng', ip'. split; [exact E1|]. cbn [seen]. split; [exact E2|exact E3]. }
  apply (G arr fs HF si []); [unfold same_suite; auto 10|reflexivity|reflexivity|]. rewrite RI. exact EInv_init.
Qed.
Print Assumptions esp_exactly_once.
