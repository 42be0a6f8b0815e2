(** From a sealed packet to its reception. *)
From Verif Require Import Base Checksum ChecksumProps Arp Forward EspReplay EspReplayProps ReplaySpec Esp EspSpec EspWire EspProofs.

Lemma spi_valid_iff spi : spi_valid spi = true <-> spi <> [0; 0; 0; 0].
Proof.
  unfold spi_valid. destruct (leqb spi [0; 0; 0; 0]) eqn:E; cbn [negb].
  - apply leqb_eq in E. split; [discriminate|contradiction].
  - split; [|reflexivity]. intros _ H. apply leqb_eq in H. congruence.
Qed.
Lemma addr_match_iff s src dst : addr_match s src dst = true <-> (sa_dst s = 0 \/ sa_dst s = dst) /\ (sa_src s = 0 \/ sa_src s = src).
Proof. unfold addr_match. rewrite andb_true_iff, !orb_true_iff, !Z.eqb_eq. intuition lia. Qed.
Lemma out_match_iff s src dst : out_match src dst s = true <-> covers s src dst.
Proof. unfold out_match, covers. rewrite andb_true_iff, spi_valid_iff, addr_match_iff. tauto. Qed.
Lemma in_match_iff spi s src dst : in_match spi src dst s = true <-> has_spi spi s /\ covers s src dst.
Proof.
  unfold in_match, covers, has_spi. rewrite !andb_true_iff, spi_valid_iff, addr_match_iff, leqb_eq. intuition congruence.
Qed.

(** [w] is [ip] sealed with number [q] by an association with [so]'s suite. *)
Definition sealed (c : crypto) (so : sa) (q : Z) (ip w : list Z) : Prop :=
  exists rng s s', rng_ok rng /\ sa_ok s /\ same_suite so s /\ wrap_sa c rng ip s = Some (s', WSend w) /\
    esp_next_oseq (sa_rep s) = (sa_rep s', Some q) /\ 1 <= q < 4294967296.

Lemma next_range r r' q : 0 <= r_oseq r < 4294967296 -> esp_next_oseq r = (r', Some q) ->
  1 <= q < 4294967296 /\ q = r_oseq r + 1 /\ r_oseq r' = q.
Proof.
  unfold esp_next_oseq. intros R H. unfold u32 in H. destruct (Z.eqb_spec ((r_oseq r + 1) mod 4294967296) 0); [discriminate|].
  injection H as <- <-. cbn [r_oseq]. lia.
Qed.

Lemma rx_sealed c so q ip w e slack ins l1 s l2 :
  crypto_ok c -> sealed c so q ip w -> datagram ip -> zlen e = 14 -> same_suite so s -> spi_valid (sa_spi so) = true ->
  (20 < ihl_bytes (zget ip 0) -> zlen (e ++ w ++ slack) <= 1536) ->
  ins = l1 ++ s :: l2 ->
  (has_spi (sa_spi so) s /\ covers s (src_of ip) (dst_of ip)) -> (forall x, In x l1 -> ~ (has_spi (sa_spi so) x /\ covers x (src_of ip) (dst_of ip))) ->
  exists g, strip_options (e ++ ip) = Some g /\
  ((sa_icv s = 0 \/ exists r, esp_replay_check (sa_rep s) q = Some true /\ esp_replay_commit (sa_rep s) q = Some r) ->
     esp_in c false ins (e ++ w ++ slack) = Some (l1 ++ after s q :: l2, Some g)) /\
  (sa_icv s <> 0 -> esp_replay_check (sa_rep s) q = Some false ->
     esp_in c false ins (e ++ w ++ slack) = Some (l1 ++ s :: l2, None)).
Proof.
  intros LC (rng & ss & ss' & RN & OK & SS & HW & HQ & QR) (D1 & D2 & D3 & D4) He S2 SV MTU HI HC HN.
  assert (L20 : 20 <= zlen ip) by lia.
  destruct (hdr_ex ip L20) as (F & v & l0 & m1 & p & c0 & c1 & r & ->). rewrite zget_hdr0 in D1, MTU.
  rewrite hdr_zlen in *.
  set (n := ihl_bytes v - 20) in *. 
  set (opts := firstn (Z.to_nat n) r) in *. set (pl := skipn (Z.to_nat n) r) in *.
  assert (ER : r = opts ++ pl) by (symmetry; apply firstn_skipn).
  assert (LO : zlen opts = n) by (apply zlen_firstn; lia).
  rewrite ER in HW, D2, D3, D4 |- *.
  assert (HV : ihl_bytes v = 20 + zlen opts) by lia.
  destruct (wrap_sa_inv c rng F v l0 m1 p c0 c1 opts pl ss ss' w LC RN OK HV HW) as (q' & pad & esp & HQ' & ESS & EP & ES & BD & EW).
  cbn zeta in EW. assert (q' = q) by congruence. subst q'. 
  set (L := 20 + zlen opts + zlen esp) in *.
  set (k := ckv (firstn (Z.to_nat (20 + zlen opts)) (hdr F v (b1 L) (b0 L) 50 0 0 ++ opts ++ esp))) in *.
  pose proof (zlen_nonneg opts) as NO. pose proof (zlen_nonneg pl) as NP. pose proof (pad_for_range (sa_enc ss) (zlen pl) NP) as PR.
  assert (OKs' : sa_ok ss').
  { destruct OK as (O1 & O2 & O3 & O4 & O5 & O6). rewrite ESS. unfold sa_ok. cbn [sa_spi sa_preiv sa_rep sa_enc sa_auth sa_icv sa_ekey with_rep].
    split; [assumption|]. split; [assumption|]. split; [assumption|].
    unfold esp_next_oseq in HQ. unfold u32 in HQ. destruct ((r_oseq (sa_rep ss) + 1) mod 4294967296 =? 0); [discriminate|].
    assert (sa_rep ss' = mkReplay (r_bitmap (sa_rep ss)) (r_hi (sa_rep ss)) ((r_oseq (sa_rep ss) + 1) mod 4294967296)) as -> by congruence.
    cbn [r_hi r_oseq]. split; [assumption|]. split; [lia|exact O6]. }
  assert (SS' : same_suite ss' s).
  { destruct SS as (? & ? & ? & ? & ? & ?), S2 as (? & ? & ? & ? & ? & ?). rewrite ESS. unfold same_suite, with_rep. cbn. intuition congruence. }
  destruct (open_seal c rng ss' s q _ esp LC RN OKs' SS' ES) as (rest & EE & LE & HO).
  pose proof SS' as (Q1 & Q2 & Q3 & Q4 & Q5 & Q6).
  pose proof OKs' as (P1 & P2 & _).
  pose proof (sa_icv_range ss' OKs') as IR. pose proof (iv_len_range (sa_enc ss')) as IVR.
  assert (LE2 : zlen esp = 8 + iv_len (sa_enc s) + (zlen pl + (pad + 2)) + sa_icv s).
  { rewrite LE, !zlen_app, padding_len, Q2, Q6 by lia. change (zlen [pad; p]) with 2. lia. }
  rewrite Q2 in IVR. rewrite Q6 in IR. rewrite <- EP in PR.
  assert (HSO : sa_spi so = sa_spi ss') by (destruct SS as (-> & _); rewrite ESS; reflexivity).
  assert (F4 : firstn 4 esp = sa_spi so).
  { rewrite EE, <- app_assoc, HSO. change 4%nat with (Z.to_nat 4). apply firstn_app_z. lia. }
  assert (R4 : rd32 esp 4 = q).
  { rewrite EE, <- app_assoc. unfold rd32. 
    assert (HZ : forall i, 0 <= i < 4 -> zget (sa_spi ss' ++ be32 q ++ rest) (4 + i) = zget (be32 q) i).
    { intros i Hi. rewrite zget_app2 by lia. rewrite P1. replace (4 + i - 4) with i by lia. rewrite zget_app1; [reflexivity|]. rewrite be32_len. lia. }
    replace (zget (sa_spi ss' ++ be32 q ++ rest) 4) with (zget (be32 q) 0) by (rewrite <- (HZ 0) by lia; reflexivity).
    rewrite (HZ 1), (HZ 2), (HZ 3) by lia. change (rd32 (be32 q) 0 = q). apply rd32_be. lia. }
  unfold esp_room in BD.
  assert (BL1 : 0 <= b1 L < 256 /\ 0 <= b0 L < 256) by (unfold b1, b0; lia).
  assert (BLv : 256 * b1 L + b0 L = 20 + zlen opts + zlen esp) by (rewrite rd16_be by (clear -BD NO; pose proof (zlen_nonneg esp); unfold L in *; lia); reflexivity).
  assert (MTU' : 0 < zlen opts -> 34 + zlen opts + zlen esp + zlen slack <= 1536).
  { intros HO0. assert (X : 20 < ihl_bytes v) by lia. specialize (MTU X). rewrite EW in MTU. rewrite !zlen_app in MTU.
    change (zlen (hdr F v (b1 L) (b0 L) 50 (b1 k) (b0 k))) with 20 in MTU. lia. }
  assert (SV4 : spi_valid (firstn 4 esp) = true) by (rewrite F4; exact SV).
  assert (E8 : 8 <= zlen esp) by lia.
  assert (IM : in_match (firstn 4 esp) (rd32 (hdr F v (b1 L) (b0 L) 50 (b1 k) (b0 k)) 12) (rd32 (hdr F v (b1 L) (b0 L) 50 (b1 k) (b0 k)) 16) s = true).
  { rewrite F4. apply in_match_iff. exact HC. }
  assert (IMN : forall x, In x l1 -> in_match (firstn 4 esp) (rd32 (hdr F v (b1 L) (b0 L) 50 (b1 k) (b0 k)) 12) (rd32 (hdr F v (b1 L) (b0 L) 50 (b1 k) (b0 k)) 16) x = false).
  { intros x Hx. apply not_true_is_false. rewrite F4. intros T. apply in_match_iff in T. exact (HN x Hx T). }
  destruct (esp_in_eq c e F v (b1 L) (b0 L) (b1 k) (b0 k) opts esp slack ins l1 s l2 He HV BLv (proj1 BL1) (proj2 BL1) ltac:(lia) MTU' HI SV4 E8 IM IMN)
    as (g0 & g1 & EI). cbn zeta in EI.
  set (V := if zlen opts =? 0 then v else v5 v) in *.
  set (M := 20 + zlen pl). set (kk := ckv (hdr F V (b1 M) (b0 M) p 0 0)).
  exists (e ++ hdr F V (b1 M) (b0 M) p (b1 kk) (b0 kk) ++ pl).
  assert (RD2 : 256 * l0 + m1 = 20 + zlen opts + zlen pl).
  { change (256 * l0 + m1 = 20 + zlen (opts ++ pl)) in D2. rewrite zlen_app in D2. lia. }
  assert (EW' : e ++ w ++ slack = e ++ hdr F v (b1 L) (b0 L) 50 (b1 k) (b0 k) ++ opts ++ esp ++ slack).
  { rewrite EW, <- !app_assoc. reflexivity. }
  split; [|split].
  - unfold V, kk, V. destruct (Z.eqb_spec (zlen opts) 0) as [Z0|Z0].
    + assert (opts = []) as -> by (apply zlen_zero; assumption). cbn [app]. unfold strip_options. rewrite hlen_of_e, HV by assumption.
      change (20 + zlen [] <=? 20) with true. cbv iota. f_equal. f_equal.
      assert (HH : hlen v = 20) by (unfold hlen; rewrite HV; reflexivity).
      cbn [app] in D4. rewrite hdr_ck20 in D4 by exact HH.
      assert (l0 = b1 M /\ m1 = b0 M) as (EL0 & EM1).
      { apply Forall_app in D3. destruct D3 as (D3 & _). unfold hdr in D3.
        pose proof (Forall_inv (Forall_inv_tail (Forall_inv_tail D3))) as BB0.
        pose proof (Forall_inv (Forall_inv_tail (Forall_inv_tail (Forall_inv_tail D3)))) as BB1.
        unfold byte in BB0, BB1. unfold b1, b0, M. rewrite Z.shiftr_div_pow2 by lia. change (2 ^ 8) with 256. change (zlen (@nil Z)) with 0 in RD2. lia. }
      subst l0 m1. assert (RG := D4). apply (f_equal (fun o => match o with Some z => z | None => [] end)) in RG. symmetry in RG. exact RG.
    + rewrite strip_hdr by (try assumption; lia).
      replace (u16 (256 * l0 + m1 - u16 (zlen opts))) with M by (unfold u16, M; lia). reflexivity.
  - intros HR. rewrite EW', EI. rewrite <- R4 in HR.
    assert (HE : 8 + iv_len (sa_enc s) + 2 + sa_icv s <= zlen esp) by lia.
    assert (HVV : ihl_bytes V = 20).
    { unfold V. destruct (Z.eqb_spec (zlen opts) 0); [lia|apply v5_ihl]. }
    assert (PL : zlen pl < 60000) by lia.
    rewrite (unwrap_sa_ok c F V (b1 (20 + zlen esp)) (b0 (20 + zlen esp)) g0 g1 esp slack s pl p _ HVV PL HR HE HO (trailer_body pl pad p ltac:(lia))).
    cbn [obind]. rewrite R4. reflexivity.
  - intros NZ CK. rewrite EW', EI. unfold unwrap_sa. destruct (Z.eqb_spec (sa_icv s) 0); [contradiction|]. rewrite R4, CK. reflexivity.
Qed.
