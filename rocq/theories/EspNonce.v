(** C78: numbers and GCM nonces on the wire never repeat. *)
From Verif Require Import Base Checksum ChecksumProps Arp Forward EspReplay EspReplayProps ReplaySpec Esp EspSpec EspWire EspProofs EspTrip EspProps EspOnce.

(** The ESP packet inside a sent datagram, and its IV. *)
Definition sent_pkt (w : list Z) : list Z := skipn (Z.to_nat (ihl_bytes (zget w 0))) w.
Definition pkt_iv (esp : list Z) : list Z := slice esp 8 8.

Definition evolves (s t : sa) : Prop :=
  (sa_ok s -> sa_ok t) /\ same_id s t /\ sa_preiv t = sa_preiv s /\ r_oseq (sa_rep s) <= r_oseq (sa_rep t).
Lemma evolves_refl s : evolves s s.
Proof. unfold evolves. split; [auto|]. split; [apply same_id_refl|]. split; [reflexivity|lia]. Qed.
Lemma evolves_trans x y z : evolves x y -> evolves y z -> evolves x z.
Proof.
  intros (A1 & (A2 & A3 & A4) & A5 & A6) (B1 & (B2 & B3 & B4) & B5 & B6). split; [auto|]. split; [|split; [congruence|lia]].
  split; [eapply same_trans; eassumption|split; congruence].
Qed.
Lemma with_rep_evolves s o : sa_ok s -> r_oseq (sa_rep s) <= o < 4294967296 -> evolves s (with_rep s (mkReplay (r_bitmap (sa_rep s)) (r_hi (sa_rep s)) o)).
Proof.
  intros (O1 & O2 & O3 & O4 & O5 & O6) R. unfold evolves, same_id, same_suite, sa_ok. cbn [sa_spi sa_src sa_dst sa_preiv sa_rep sa_enc sa_auth sa_icv sa_ekey sa_akey with_rep r_hi r_oseq].
  split; [|split; [auto 10|split; [reflexivity|lia]]]. intros _. split; [assumption|]. split; [assumption|]. split; [assumption|]. split; [assumption|]. split; [lia|exact O6].
Qed.
Lemma wrap_sa_rep c rng ip s s' r : wrap_sa c rng ip s = Some (s', r) -> s' = with_rep s (fst (esp_next_oseq (sa_rep s))).
Proof.
  unfold wrap_sa. intros H. destruct (esp_room <? zlen ip + 8 + iv_len (sa_enc s)); [discriminate|].
  destruct (esp_next_oseq (sa_rep s)) as [rp o]. cbn [fst].
  repeat (match type of H with
          | (if ?b then _ else _) = _ => destruct b; [discriminate|]
          | match ?m with Some _ => _ | None => _ end = _ => destruct m
          | obind ?m _ = _ => destruct m; cbn [obind] in H; [|discriminate]
          end); congruence.
Qed.
Lemma wrap_sa_evolves c rng ip s s' r : sa_ok s -> wrap_sa c rng ip s = Some (s', r) -> evolves s s'.
Proof.
  intros OK H. rewrite (wrap_sa_rep _ _ _ _ _ _ H). pose proof OK as (_ & _ & _ & _ & R & _).
  unfold esp_next_oseq, u32. destruct (Z.eqb_spec ((r_oseq (sa_rep s) + 1) mod 4294967296) 0) as [E|E]; cbn [fst]; apply with_rep_evolves; auto; lia.
Qed.

(** The shape of one sent packet. *)
Lemma seal_wire c rng s q body esp : crypto_ok c -> rng_ok rng -> sa_ok s -> 0 <= q < 4294967296 -> seal c rng s q body = Some esp ->
  8 <= zlen esp /\ pkt_spi esp = sa_spi s /\ pkt_seq esp = q /\ (sa_enc s = EGcm4106 \/ sa_enc s = EGcm4543 -> pkt_iv esp = gen_iv s q).
Proof.
  intros LC RN OK QR H. pose proof OK as (O1 & _ & O3 & _). pose proof (gen_iv_len s q O3) as LI.
  assert (SS : same_suite s s) by (unfold same_suite; auto 10).
  destruct (open_seal c rng s s q body esp LC RN OK SS H) as (rest & E & LE & _).
  assert (L4 : length (sa_spi s) = 4%nat) by (unfold zlen in O1; lia).
  pose proof (zlen_nonneg body). pose proof (sa_icv_range s OK). pose proof (iv_len_range (sa_enc s)).
  split; [lia|]. split; [|split].
  - rewrite E. unfold pkt_spi. rewrite <- app_assoc, firstn_app, L4, Nat.sub_diag, firstn_O, app_nil_r. apply firstn_all2. lia.
  - rewrite E. destruct (sa_spi s) as [|x0 [|x1 [|x2 [|x3 [|x4 xs]]]]]; try discriminate. exact (rd32_be q QR).
  - intros G. unfold seal in H. assert (X : exists d, esp = (sa_spi s ++ be32 q) ++ gen_iv s q ++ d).
    { destruct G as [G|G]; rewrite G in H.
      - destruct (gcm_enc c (aes_key s) (salt s ++ gen_iv s q) body (sa_spi s ++ be32 q) (sa_icv s)) as [[ct tag]|]; [|discriminate]. cbn [obind] in H.
        destruct (sa_icv s =? 0); [injection H as <-; eexists; rewrite <- !app_assoc; reflexivity|].
        destruct (is_hmac (sa_auth s)).
        + match type of H with obind ?m _ = _ => destruct m end; [|discriminate]. cbn [obind] in H. injection H as <-. eexists; rewrite <- !app_assoc; reflexivity.
        + destruct (is_aead (sa_auth s)); [|discriminate]. injection H as <-. eexists; rewrite <- !app_assoc; reflexivity.
      - destruct (gmac c (aes_key s) (salt s ++ gen_iv s q) _ (sa_icv s)) as [tag|]; [|discriminate]. cbn [obind] in H.
        destruct (sa_icv s =? 0); [injection H as <-; eexists; rewrite <- !app_assoc; reflexivity|].
        destruct (is_hmac (sa_auth s)).
        + match type of H with obind ?m _ = _ => destruct m end; [|discriminate]. cbn [obind] in H. injection H as <-. eexists; rewrite <- !app_assoc; reflexivity.
        + destruct (is_aead (sa_auth s)); [|discriminate]. injection H as <-. eexists; rewrite <- !app_assoc; reflexivity. }
    destruct X as (d & ->). unfold pkt_iv. apply slice_mid; [|lia]. rewrite zlen_app, O1. reflexivity.
Qed.
Lemma wrap_wire c rng ip s s' w : crypto_ok c -> rng_ok rng -> sa_ok s -> 20 <= ihl_bytes (zget ip 0) <= zlen ip ->
  wrap_sa c rng ip s = Some (s', WSend w) ->
  ihl_bytes (zget w 0) = ihl_bytes (zget ip 0) /\ zget w 9 = 50 /\ src_of w = src_of ip /\ dst_of w = dst_of ip /\ zlen w = rd16 w 2 /\
  firstn (Z.to_nat (ihl_bytes (zget ip 0))) w <> [] /\
  r_oseq (sa_rep s') = r_oseq (sa_rep s) + 1 /\ 1 <= r_oseq (sa_rep s') < 4294967296 /\
  pkt_spi (sent_pkt w) = sa_spi s /\ pkt_seq (sent_pkt w) = r_oseq (sa_rep s') /\
  (sa_enc s = EGcm4106 \/ sa_enc s = EGcm4543 -> pkt_iv (sent_pkt w) = gen_iv s (r_oseq (sa_rep s'))).
Proof.
  intros LC RN OK HL H. assert (L20 : 20 <= zlen ip) by lia.
  destruct (hdr_ex ip L20) as (F & v & l0 & l1 & p & c0 & c1 & r & ->). rewrite zget_hdr0 in *. rewrite hdr_zlen in *.
  set (n := ihl_bytes v - 20) in *. set (opts := firstn (Z.to_nat n) r). set (pl := skipn (Z.to_nat n) r).
  assert (ER : r = opts ++ pl) by (symmetry; apply firstn_skipn). assert (LO : zlen opts = n) by (apply zlen_firstn; lia).
  rewrite ER in H |- *. assert (HV : ihl_bytes v = 20 + zlen opts) by lia.
  destruct (wrap_sa_inv c rng F v l0 l1 p c0 c1 opts pl s s' w LC RN OK HV H) as (q & pad & esp & HQ & ES' & EP & ES & BD & EW). cbv zeta in EW.
  pose proof OK as (_ & _ & _ & _ & RO & _). destruct (next_range _ _ _ RO HQ) as (QR & Q1 & Q2).
  pose proof (wrap_sa_evolves _ _ _ _ _ _ OK H) as (EV1 & ((EV2 & EV3 & _) & _) & EV4 & _). specialize (EV1 OK).
  destruct (seal_wire c rng s' q _ esp LC RN EV1 ltac:(lia) ES) as (W0 & W1 & W2 & W3).
  assert (SP : sent_pkt w = esp).
  { unfold sent_pkt. rewrite EW, zget_hdr0, HV. apply skipn_hdr. reflexivity. }
  rewrite SP. split; [rewrite EW; reflexivity|]. split; [rewrite EW; reflexivity|].
  split; [rewrite EW; reflexivity|]. split; [rewrite EW; reflexivity|]. split.
  { rewrite EW, hdr_zlen, zlen_app. set (L := 20 + zlen opts + zlen esp) in *. 
    match goal with |- _ = rd16 ?x 2 => change (rd16 x 2) with (256 * b1 L + b0 L) end. pose proof (zlen_nonneg opts). pose proof (zlen_nonneg esp).
    rewrite rd16_be by (unfold L, esp_room in *; lia). unfold L. lia. }
  split.
  { rewrite EW. rewrite HV. pose proof (zlen_nonneg opts). replace (Z.to_nat (20 + zlen opts)) with (S (Z.to_nat (19 + zlen opts))) by lia. discriminate. }
  split; [lia|]. split; [lia|]. split; [congruence|]. split; [congruence|].
  rewrite EV3. intros G. rewrite (W3 G), Q2. unfold gen_iv. rewrite EV4. reflexivity.
Qed.

Lemma xor_inj a : forall x y, length a = length x -> length a = length y -> xor_bytes a x = xor_bytes a y -> x = y.
Proof.
  induction a as [|b a IH]; intros [|x xs] [|y ys] L1 L2 E; cbn in *; try discriminate; [reflexivity|]. injection E as E1 E2.
  f_equal; [|apply IH; auto]. apply (f_equal (Z.lxor b)) in E1. rewrite <- !Z.lxor_assoc in E1.
  rewrite Z.lxor_nilpotent, !Z.lxor_0_l in E1. exact E1.
Qed.
Lemma gen_iv_inj s p q : zlen (sa_preiv s) = 8 -> 0 <= p < 4294967296 -> 0 <= q < 4294967296 -> gen_iv s p = gen_iv s q -> p = q.
Proof.
  intros L RP RQ E. unfold gen_iv in E. apply app_inv_head in E.
  assert (LK : length (skipn 4 (sa_preiv s)) = 4%nat) by (rewrite skipn_length; unfold zlen in L; lia).
  apply xor_inj in E; [|rewrite LK; reflexivity|rewrite LK; reflexivity].
  rewrite <- (rd32_be p RP), <- (rd32_be q RQ). congruence.
Qed.

(** One datagram given to a host, as far as the table is concerned. *)
Lemma wrap_step c rng outs ip outs' r : table_ok outs -> crypto_ok c -> rng_ok rng -> esp_wrap c rng outs ip = Some (outs', r) ->
  Forall2 evolves outs outs' /\
  match r with
  | WPlain => forall x, In x outs -> ~ covers x (src_of ip) (dst_of ip)
  | WErr => True
  | WSend w => exists l1 s l2 t, outs = l1 ++ s :: l2 /\ outs' = l1 ++ t :: l2 /\ chosen any_spi l1 s (src_of ip) (dst_of ip) /\
      sa_ok s /\ 20 <= ihl_bytes (zget ip 0) <= zlen ip /\ wrap_sa c rng ip s = Some (t, WSend w)
  end.
Proof.
  intros TO LC RN H. assert (RF : Forall2 evolves outs outs) by (apply Forall2_refl; exact evolves_refl).
  unfold esp_wrap in H. destruct (esp_room <? zlen ip); [discriminate|].
  destruct ((ihl_bytes (zget ip 0) <? 20) || (zlen ip <? ihl_bytes (zget ip 0))) eqn:EB; [injection H as <- <-; auto|].
  fold (src_of ip) in H. fold (dst_of ip) in H.
  destruct (with_first (out_match (src_of ip) (dst_of ip)) (wrap_sa c rng ip) outs) as [[o1 r1]|] eqn:EW; [|discriminate]. cbn [obind] in H. injection H as <- <-.
  apply with_first_inv in EW. destruct r1 as [r1|].
  - destruct EW as (l1 & s & l2 & t & -> & -> & HM & HN & HW). apply out_match_iff in HM.
    destruct (TO s) as [-> |OK]; [apply in_app_iff; right; left; reflexivity|exfalso; destruct HM as (HM & _); apply HM; reflexivity|].
    split.
    + apply Forall2_app; [apply Forall2_refl; exact evolves_refl|]. constructor; [|apply Forall2_refl; exact evolves_refl]. eapply wrap_sa_evolves; eassumption.
    + destruct r1; [|exact I|exfalso].
      2:{ unfold wrap_sa in HW. repeat (match type of HW with
          | (if ?b then _ else _) = _ => destruct b; [discriminate|]
          | (let '(_, _) := ?b in _) = _ => destruct b
          | match ?m with Some _ => _ | None => _ end = _ => destruct m
          | obind ?m _ = _ => destruct m; cbn [obind] in HW; [|discriminate]
          end); discriminate. }
      exists l1, s, l2, t. split; [reflexivity|]. split; [reflexivity|]. split; [|split; [exact OK|split; [lia|exact HW]]].
      split; [exact I|]. split; [exact HM|]. intros x Hx (_ & T). apply out_match_iff in T. rewrite (HN x Hx) in T. discriminate.
  - destruct EW as (-> & HN). split; [exact RF|]. intros x Hx T. apply out_match_iff in T. rewrite (HN x Hx) in T. discriminate.
Qed.
Lemma wrap_table c rng outs ip outs' r : table_ok outs -> crypto_ok c -> rng_ok rng -> esp_wrap c rng outs ip = Some (outs', r) -> table_ok outs'.
Proof.
  intros TO LC RN H. unfold esp_wrap in H. destruct (esp_room <? zlen ip); [discriminate|].
  destruct ((ihl_bytes (zget ip 0) <? 20) || (zlen ip <? ihl_bytes (zget ip 0))); [injection H as <- <-; auto|].
  destruct (with_first _ (wrap_sa c rng ip) outs) as [[o1 r1]|] eqn:EW; [|discriminate]. cbn [obind] in H. injection H as <- <-.
  apply with_first_inv in EW. destruct r1 as [r1|]; [|destruct EW as (-> & _); exact TO].
  destruct EW as (l1 & s & l2 & t & -> & -> & HM & _ & HW). apply out_match_iff in HM.
  intros x Hx. apply in_app_iff in Hx. destruct Hx as [Hx|[<- |Hx]].
  - apply TO. apply in_app_iff. auto.
  - destruct (TO s) as [-> |OK]; [apply in_app_iff; right; left; reflexivity|exfalso; destruct HM as (HM & _); apply HM; reflexivity|].
    right. apply (wrap_sa_evolves _ _ _ _ _ _ OK HW). exact OK.
  - apply TO. apply in_app_iff. right. right. exact Hx.
Qed.
Lemma chosen_index_out src dst : forall l1 s l2 m1 t m2, Forall2 same_id (l1 ++ s :: l2) (m1 ++ t :: m2) ->
  chosen any_spi l1 s src dst -> chosen any_spi m1 t src dst -> length l1 = length m1.
Proof.
  assert (T : forall x y, same_id x y -> (covers x src dst <-> covers y src dst)).
  { intros x y ((S1 & _) & S2 & S3). unfold covers. rewrite S2, S3, S1. tauto. }
  induction l1 as [|x l1 IH]; intros s l2 [|y m1] t m2 H (A1 & A2 & A3) (B1 & B2 & B3); cbn [app] in H; inversion H; subst; cbn [length]; [reflexivity| | |].
  - exfalso. apply (B3 y (or_introl eq_refl)). split; [exact I|]. eapply (proj1 (T _ _ ltac:(eassumption))). assumption.
  - exfalso. apply (A3 x (or_introl eq_refl)). split; [exact I|]. eapply (proj2 (T _ _ ltac:(eassumption))). assumption.
  - f_equal. eapply IH; [eassumption| |]; (split; [exact I|]; split; [assumption|]); intros z Hz; [apply A3|apply B3]; right; exact Hz.
Qed.
Lemma tx_nth c : crypto_ok c -> forall l outs outs' ws, table_ok outs -> (forall rng ip, In (rng, ip) l -> rng_ok rng) ->
  tx_all c outs l = Some (outs', ws) -> forall i r, nth_error ws i = Some r ->
  exists rng ip o1 o2, nth_error l i = Some (rng, ip) /\ Forall2 evolves outs o1 /\ table_ok o1 /\ rng_ok rng /\
    esp_wrap c rng o1 ip = Some (o2, r) /\
    (forall j r', (i < j)%nat -> nth_error ws j = Some r' -> exists rng' ip' o3 o4, nth_error l j = Some (rng', ip') /\
       Forall2 evolves o2 o3 /\ table_ok o3 /\ rng_ok rng' /\ esp_wrap c rng' o3 ip' = Some (o4, r')).
Proof.
  intros LC. induction l as [|[rng ip] l IH]; intros outs outs' ws TO RN H i r HN; cbn [tx_all] in H.
  - injection H as <- <-. destruct i; discriminate.
  - destruct (esp_wrap c rng outs ip) as [[outs1 r1]|] eqn:EW; [|discriminate]. cbn [obind] in H.
    destruct (tx_all c outs1 l) as [[outs2 rs]|] eqn:ET; [|discriminate]. cbn [obind] in H. injection H as <- <-.
    pose proof (RN rng ip (or_introl eq_refl)) as RNi. pose proof (wrap_table _ _ _ _ _ _ TO LC RNi EW) as TO1.
    assert (RN' : forall rng ip, In (rng, ip) l -> rng_ok rng) by (intros rg ip' Hin; exact (RN rg ip' (or_intror Hin))).
    specialize (IH outs1 outs2 rs TO1 RN' ET).
    destruct i as [|i]; cbn [nth_error] in HN.
    + injection HN as ->. exists rng, ip, outs, outs1. split; [reflexivity|]. split; [apply Forall2_refl; exact evolves_refl|]. split; [exact TO|].
      split; [exact RNi|]. split; [exact EW|]. intros [|j] r' Hj HNj; [lia|]. cbn [nth_error] in *.
      destruct (IH j r' HNj) as (rg & ip' & o1 & o2 & E1 & E2 & E3 & E4 & E5 & _). exists rg, ip', o1, o2. auto.
    + destruct (IH i r HN) as (rg & ip' & o1 & o2 & E1 & E2 & E3 & E4 & E5 & E6). exists rg, ip', o1, o2. split; [exact E1|].
      split; [eapply (Forall2_trans evolves); [exact evolves_trans| |exact E2]; exact (proj1 (wrap_step _ _ _ _ _ _ TO LC RNi EW))|].
      split; [exact E3|]. split; [exact E4|]. split; [exact E5|]. intros [|j] r' Hj HNj; [lia|]. cbn [nth_error] in *. apply E6; [lia|exact HNj].
Qed.

(** C78.  In whatever a host sends, however long, interleaved with anything on
    other associations and with whatever failures: two datagrams with the same
    addresses that leave through ESP leave with the same SPI, numbers in strictly
    increasing order (so none is ever 0 or used twice: when the 32-bit counter is
    exhausted nothing more is sent), and under the GCM suites different IVs, hence
    different nonces for the one key. *)
Theorem esp_nonce_never_repeats : forall c outs l outs' ws i j rngi ipi rngj ipj wi wj,
  crypto_ok c -> table_ok outs -> (forall rng ip, In (rng, ip) l -> rng_ok rng) ->
  tx_all c outs l = Some (outs', ws) -> (i < j)%nat ->
  nth_error l i = Some (rngi, ipi) -> nth_error l j = Some (rngj, ipj) ->
  nth_error ws i = Some (WSend wi) -> nth_error ws j = Some (WSend wj) ->
  forall l1 s l2, outs = l1 ++ s :: l2 ->
  chosen any_spi l1 s (src_of ipi) (dst_of ipi) -> chosen any_spi l1 s (src_of ipj) (dst_of ipj) ->
  pkt_spi (sent_pkt wi) = sa_spi s /\ pkt_spi (sent_pkt wj) = sa_spi s /\
  r_oseq (sa_rep s) < pkt_seq (sent_pkt wi) < pkt_seq (sent_pkt wj) /\ pkt_seq (sent_pkt wj) < 4294967296 /\
  (sa_enc s = EGcm4106 \/ sa_enc s = EGcm4543 -> pkt_iv (sent_pkt wi) <> pkt_iv (sent_pkt wj)).
Proof.
  intros c outs l outs' ws i j rngi ipi rngj ipj wi wj LC TO RN HT Hij Li Lj Wi Wj l1 s l2 EO Ci Cj.
  destruct (tx_nth c LC l outs outs' ws TO RN HT i (WSend wi) Wi) as (rg & ip & o1 & o2 & E1 & E2 & E3 & E4 & E5 & E6).
  destruct (E6 j (WSend wj) Hij Wj) as (rg' & ip' & o3 & o4 & F1 & F2 & F3 & F4 & F5).
  assert (rg = rngi /\ ip = ipi) as (-> & ->) by (split; congruence). assert (rg' = rngj /\ ip' = ipj) as (-> & ->) by (split; congruence).
  clear E1 F1 E6. subst outs.
  destruct (wrap_step _ _ _ _ _ _ E3 LC E4 E5) as (_ & a1 & x & a2 & t & -> & -> & Cx & OKx & Hx & Wx).
  destruct (wrap_step _ _ _ _ _ _ F3 LC F4 F5) as (_ & b1 & y & b2 & u & -> & _ & Cy & OKy & Hy & Wy).
  assert (ID : forall a b, Forall2 evolves a b -> Forall2 same_id a b).
  { intros a b H. induction H; constructor; auto. apply H. }
  pose proof (chosen_index_out _ _ _ _ _ _ _ _ (ID _ _ E2) Ci Cx) as LA.
  assert (E2' : Forall2 evolves (l1 ++ s :: l2) (a1 ++ t :: a2)).
  { apply Forall2_app_inv_l in E2. destruct E2 as (c1 & cc & G1 & G2 & G3). inversion G2 as [|? z ? c2 G4 G5]; subst.
    pose proof (Forall2_len _ _ _ G1) as LL. assert (a1 = c1 /\ x = z /\ a2 = c2) as (-> & -> & ->).
    { clear - G3 LA LL. assert (L : length a1 = length c1) by lia. clear LA LL. revert c1 G3 L. induction a1 as [|p a1 IH]; intros [|q c1] E L; cbn in *; try discriminate.
      - injection E as -> ->. auto.
      - injection E as -> E. destruct (IH c1 E ltac:(lia)) as (-> & -> & ->). auto. }
    apply Forall2_app; [exact G1|]. constructor; [|exact G5]. eapply evolves_trans; [exact G4|]. eapply wrap_sa_evolves; eassumption. }
  pose proof (Forall2_trans evolves evolves_trans _ _ _ E2' F2) as EB.
  pose proof (chosen_index_out _ _ _ _ _ _ _ _ (ID _ _ EB) Cj Cy) as LB.
  assert (SX : evolves s x).
  { apply Forall2_app_inv_l in E2. destruct E2 as (c1 & cc & G1 & G2 & G3). inversion G2; subst. apply Forall2_len in G1.
    assert (x = y0) as -> by (eapply app_mid; [exact G3|lia]). assumption. }
  assert (TY : evolves t y).
  { apply Forall2_app_inv_l in F2. destruct F2 as (c1 & cc & G1 & G2 & G3). inversion G2; subst. apply Forall2_len in G1.
    assert (y = y0) as -> by (eapply app_mid; [exact G3|lia]). assumption. }
  destruct (wrap_wire _ _ _ _ _ _ LC E4 OKx Hx Wx) as (_ & _ & _ & _ & _ & _ & A1 & A2 & A3 & A4 & A5).
  destruct (wrap_wire _ _ _ _ _ _ LC F4 OKy Hy Wy) as (_ & _ & _ & _ & _ & _ & B1 & B2 & B3 & B4 & B5).
  pose proof (wrap_sa_evolves _ _ _ _ _ _ OKx Wx) as (_ & ((X1 & X2 & _) & _) & X3 & X4).
  destruct SX as (_ & ((S1 & S2 & _) & _) & S3 & S4). destruct TY as (_ & ((T1 & T2 & _) & _) & T3 & T4).
  split; [congruence|]. split; [congruence|]. split; [lia|]. split; [lia|]. intros G EQ.
  rewrite A5 in EQ by (rewrite <- S2; exact G). rewrite B5 in EQ by (rewrite <- T2, <- X2, <- S2; exact G).
  replace (gen_iv y (r_oseq (sa_rep u))) with (gen_iv x (r_oseq (sa_rep u))) in EQ by (unfold gen_iv; rewrite T3, X3; reflexivity).
  apply gen_iv_inj in EQ; [lia|apply OKx|lia|lia].
Qed.
Print Assumptions esp_nonce_never_repeats.
