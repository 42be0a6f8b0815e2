From Verif Require Import Base ListUtil Bits Checksum ChecksumProps Route RouteProps Arp ArpProps HttpUrl Forward ForwardSpec ForwardProofs.
Local Ltac Zify.zify_post_hook ::= idtac.

Lemma good_antisym a b c a' b' c' : at_least_as_good a b c a' b' c' -> at_least_as_good a' b' c' a b c -> c = c'.
Proof. unfold at_least_as_good. lia. Qed.
Lemma zlen_confs w : zlen (w_confs w) = zlen (w_ifs w).
Proof. unfold w_confs, zlen. rewrite map_length. reflexivity. Qed.
Lemma conf_lt w j c : conf_of w j c -> 0 <= j < zlen (w_ifs w).
Proof.
  intros (H0 & H1 & _). assert (HX : (Z.to_nat j < length (confs w))%nat) by (apply nth_error_Some; congruence).
  unfold confs in HX. rewrite map_length in HX. unfold zlen. lia.
Qed.

Lemma route_spec w i d : world_ok w -> 0 <= i < zlen (w_ifs w) -> addr32 d -> ~ own w d ->
  match fwd_route w i d with
  | Some (o, nh) => egress w i d o nh /\ 0 <= o < zlen (w_ifs w)
  | None => forall o nh, ~ egress w i d o nh
  end.
Proof.
  intros (WI & WL & WR & _) Hi Hd NO. unfold fwd_route.
  assert (NO' : forall c, In c (w_confs w) -> c_ip c <> 0 -> c_ip c <> d).
  { intros c HI HC HE. apply NO. apply in_nth in HI. destruct HI as (j & J0 & J1). exists j, c. split; [split; [exact J0|split; assumption]|exact HE]. }
  pose proof (forward_if_loop_spec (w_confs w) i d NO' (w_confs w) 0 eq_refl ltac:(lia)) as FS.
  assert (FI : forward_interface (w_confs w) i d = forward_if_loop (w_confs w) 0 i d).
  { unfold forward_interface. destruct (Z.ltb_spec (zlen (w_confs w)) 2) as [L|L]; [|reflexivity].
    destruct (forward_if_loop (w_confs w) 0 i d) as [o|]; [|reflexivity]. destruct FS as (F1 & F2 & (c & F3 & _) & _).
    assert (HX : (Z.to_nat o < length (w_confs w))%nat) by (apply nth_error_Some; congruence). rewrite zlen_confs in L. unfold w_confs in HX.
    rewrite map_length in HX. unfold zlen in *. lia. }
  rewrite FI. destruct (forward_if_loop (w_confs w) 0 i d) as [o|].
  - destruct FS as (F1 & F2 & (c & F3 & F4 & F5) & F6). assert (CO : conf_of w o c) by (split; [exact F1|split; assumption]).
    split; [|eapply conf_lt; exact CO]. split; [exact F2|]. left. split; [exists c; auto|]. split; [reflexivity|].
    intros o' (c' & C1 & C2 & C3). destruct (Z.le_gt_cases o o') as [|LT]; [assumption|]. exfalso.
    destruct C1 as (C10 & C11 & C12). apply (F6 o' c'); auto; lia.
  - assert (NC : forall o, ~ connected w i d o).
    { intros o' (c' & (C10 & C11 & C12) & C2 & C3). apply (FS o' c'); auto. }
    pose proof (static_spec w d Hd WR) as SS. cbv zeta in SS |- *.
    set (b := lookup_static (w_routes w) d _) in *. destruct (b_found b); cbn [negb].
    + destruct SS as (r & R1 & R2 & R3). destruct (Z.eqb_spec (b_if b) i) as [E|E].
      * intros o nh (NE & [(C & _)|(_ & r' & R1' & -> & _)]); [eapply NC; exact C|]. apply NE.
        rewrite <- E, R2. destruct R1 as (A1 & A2 & A3 & A4), R1' as (B1 & B2 & B3 & B4).
        eapply good_antisym; [apply B4; assumption|apply A4; assumption].
      * split.
        -- split; [exact E|]. right. split; [exact NC|]. exists r. auto.
        -- rewrite R2. destruct R1 as (A1 & A2 & _). rewrite Forall_forall in WR. apply (WR r A1 A2).
    + intros o nh (_ & [(C & _)|(_ & r & R & _)]); [eapply NC; exact C|exact (SS r R)].
Qed.

(** ** Delivery *)
Lemma delivered_id f : Forall byte f -> wellformed f -> ihl f <= 20 -> delivered f f.
Proof.
  intros HB (L & V & I & T & O & _) H. assert (E : ihl f = 20) by lia. unfold delivered. rewrite E.
  split; [lia|]. split; [|split; [lia|split; [reflexivity|split; [reflexivity|]]]].
  - unfold ihl in E. pose proof (Z.div_mod (zget f 14) 16 ltac:(lia)). lia.
  - rewrite E in O. exact O.
Qed.
Lemma strip_spec f : Forall byte f -> wellformed f -> exists g, strip_options f = Some g /\ delivered f g.
Proof.
  intros HB HW. pose proof HW as (L & V & I & T & O & _). pose proof (ihl_range f HB) as IR. unfold strip_options. rewrite hlen_ihl by assumption.
  destruct (Z.leb_spec (ihl f) 20); [exists f; split; [reflexivity|apply delivered_id; assumption]|].
  set (h := ihl f) in *. unfold memmove. rewrite mread_part by lia. cbn [obind].
  set (tl := part f (14 + h) (zlen f - (14 + h))).
  assert (Lt : zlen tl = zlen f - (14 + h)) by (apply zlen_part; lia).
  destruct (mwrite_spec f 34 tl) as (f0 & E0 & L0 & G0 & B0); [lia|lia|]. rewrite E0. cbn [obind].
  set (n := zlen f - (h - 20)) in *. set (f1 := firstn (Z.to_nat n) f0).
  assert (L1 : zlen f1 = n) by (apply zlen_firstn; lia).
  assert (G1 : forall k, 0 <= k < n -> zget f1 k = if k <? 34 then zget f k else zget tl (k - 34)).
  { intros k K. unfold f1. rewrite zget_firstn by lia. rewrite G0 by lia.
    destruct (Z.ltb_spec k 34); destruct ((34 <=? k) && (k <? 34 + zlen tl)) eqn:Q; try reflexivity; lia. }
  assert (B1 : Forall byte f1) by (apply Forall_firstn, B0; [assumption|apply part_bytes; assumption]).
  assert (V1 : Z.lor (Z.land (zget f1 14) 240) 5 = 69).
  { rewrite G1 by lia. change (14 <? 34) with true. cbv iota. pose proof (Z.div_mod (zget f 14) 16 ltac:(lia)) as DM. rewrite V in DM.
    rewrite DM. pose proof (Z.mod_pos_bound (zget f 14) 16 ltac:(lia)) as MB. set (m := zget f 14 mod 16) in *. clearbody m.
    assert (H16 : forall m, 0 <= m < 16 -> Z.lor (Z.land (16 * 4 + m) 240) 5 = 69).
    { intros x Hx. assert (In x [0;1;2;3;4;5;6;7;8;9;10;11;12;13;14;15]) by (cbn; lia).
      repeat (match goal with HH : In x _ |- _ => destruct HH as [<- |HH]; [reflexivity|] end). contradiction. }
    apply H16. exact MB. }
  rewrite V1.
  destruct (mwrite_spec f1 14 [69]) as (f2 & E2 & L2 & G2 & B2); [lia|rewrite zlen_cons, zlen_nil; lia|]. rewrite E2. cbn [obind]. change (zlen [69]) with 1 in G2.
  set (tl2 := u16 (rd16 f 16 - u16 (h - 20))). assert (TE : tl2 = total f - (h - 20)).
  { unfold tl2, u16. change (rd16 f 16) with (total f). pose proof (word_range f 16 HB) as WR. fold (total f) in WR. rewrite (Z.mod_small (h - 20)) by lia. apply Z.mod_small. lia. }
  destruct (mwrite_spec f2 16 (be16 tl2)) as (f3 & E3 & L3 & G3 & B3); [lia|change (zlen (be16 tl2)) with 2; lia|]. rewrite E3. cbn [obind]. change (zlen (be16 tl2)) with 2 in G3.
  assert (B3' : Forall byte f3).
  { apply B3; [|apply be16_bytes]. apply B2; [assumption|]. constructor; [unfold byte; lia|constructor]. }
  assert (Z14 : zget f3 14 = 69) by (rewrite G3, G2 by lia; reflexivity).
  destruct (set_ck_spec f3) as (g & Eg & Lg & Sg & Vg & Bg); [assumption|lia|rewrite Z14; reflexivity|unfold ihl; rewrite Z14; change (69 mod 16) with 5; lia|unfold ihl; rewrite Z14; change (69 mod 16) with 5; lia|].
  unfold set_ck in Eg. exists g. split; [exact Eg|].
  assert (G3' : forall k, 0 <= k -> k <> 14 -> k <> 16 -> k <> 17 -> zget f3 k = zget f1 k).
  { intros k K0 K1 K2 K3. rewrite G3 by lia. destruct ((16 <=? k) && (k <? 16 + 2)) eqn:Q; [lia|].
    rewrite G2 by lia. destruct ((14 <=? k) && (k <? 14 + 1)) eqn:Q2; [lia|reflexivity]. }
  assert (GT : total g = tl2).
  { unfold total, word. rewrite !Sg by lia. rewrite !G3 by lia. cbn [Z.leb Z.ltb Z.add Z.compare Pos.compare Pos.compare_cont Pos.add Pos.succ andb].
    change (zget (be16 tl2) (16 - 16)) with (Z.shiftr tl2 8 mod 256). change (zget (be16 tl2) (17 - 16)) with (tl2 mod 256).
    assert (0 <= tl2 < 65536). { unfold tl2, u16. apply Z.mod_pos_bound. lia. }
    rewrite shr by lia. change (2 ^ 8) with 256. assert (tl2 / 256 < 256) by (apply Z.div_lt_upper_bound; lia).
    rewrite (Z.mod_small (tl2 / 256)) by (split; [apply Z.div_pos; lia|assumption]). pose proof (Z.div_mod tl2 256 ltac:(lia)). lia. }
  unfold delivered. split; [lia|]. split; [rewrite Sg by lia; exact Z14|]. split; [lia|]. split; [|split].
  - intros k K K1 K2 K3 K4 K5. rewrite Sg, G3', G1 by lia. destruct (Z.ltb_spec k 34); [reflexivity|lia].
  - apply zget_ext.
    + rewrite !zlen_part by lia. lia.
    + intros k K. rewrite zlen_part in K by lia. rewrite zget_part by lia. rewrite Sg, G3', G1 by lia.
      destruct (Z.ltb_spec (34 + k) 34); [lia|]. replace (34 + k - 34) with k by lia. unfold tl. fold h. reflexivity.
  - assert (IG : ihl g = 20). { unfold ihl. rewrite Sg, Z14 by lia. reflexivity. } rewrite IG in Vg. exact Vg.
Qed.
Lemma up_spec f : Forall byte f -> wellformed f ->
  exists e, ip_up f = Some e /\ ((20 < ihl f /\ 1536 < zlen f /\ e = []) \/ (exists g, e = [EvUp g] /\ delivered f g)).
Proof.
  intros HB HW. unfold ip_up. rewrite hlen_ihl by assumption.
  destruct ((20 <? ihl f) && (1536 <? zlen f)) eqn:Q; [exists []; split; [reflexivity|left; split; [lia|split; [lia|reflexivity]]]|].
  destruct (strip_spec f HB HW) as (g & E & D). rewrite E. cbn [obind]. eexists. split; [reflexivity|]. right. exists g. auto.
Qed.

(** ** Time exceeded *)
Lemma hdr20_spec ip : Forall byte ip -> zlen ip = 20 -> zget ip 0 = 69 ->
  exists ip', iphdr_set_checksum ip = Some ip' /\ zlen ip' = 20 /\ (forall k, 0 <= k -> k <> 10 -> k <> 11 -> zget ip' k = zget ip k) /\
    ones_complement_valid ip' /\ Forall byte ip'.
Proof.
  intros HB HL H0. set (f := repeat 0 14 ++ ip).
  assert (L14 : zlen (repeat 0 14) = 14) by reflexivity.
  assert (Z14 : zget f 14 = 69) by (unfold f; rewrite zget_app2 by lia; exact H0).
  destruct (set_ck_spec f) as (g & Eg & Lg & Sg & Vg & Bg).
  - apply Forall_app. split; [|assumption]. repeat constructor; unfold byte; lia.
  - unfold f. rewrite zlen_app. lia.
  - rewrite Z14. reflexivity.
  - unfold ihl. rewrite Z14. change (69 mod 16) with 5. lia.
  - unfold ihl. rewrite Z14. change (69 mod 16) with 5. unfold f. rewrite zlen_app. lia.
  - unfold set_ck in Eg. change (skipn 14 f) with ip in Eg. change (firstn 14 f) with (repeat 0 14) in Eg.
    destruct (iphdr_set_checksum ip) as [ip'|]; [|discriminate]. cbn [obind] in Eg. apply some_inj in Eg. subst g.
    exists ip'. split; [reflexivity|]. rewrite zlen_app in Lg. unfold f in Lg. rewrite zlen_app in Lg. split; [lia|]. split; [|split].
    + intros k K0 K1 K2. specialize (Sg (14 + k) ltac:(lia) ltac:(lia) ltac:(lia)). unfold f in Sg. rewrite !zget_app2 in Sg by lia.
      rewrite L14 in Sg. replace (14 + k - 14) with k in Sg by lia. exact Sg.
    + assert (IG : ihl (repeat 0 14 ++ ip') = 20).
      { unfold ihl. rewrite Sg, Z14 by lia. reflexivity. }
      rewrite IG in Vg. unfold part in Vg. change (Z.to_nat 14) with 14%nat in Vg. cbn [repeat app skipn] in Vg. rewrite firstn_all2 in Vg by (unfold zlen in *; lia). exact Vg.
    + apply Forall_app in Bg. apply Bg.
Qed.

Lemma slice_part f o n : slice f o n = part f (Z.of_nat o) (Z.of_nat n).
Proof. unfold slice, part. rewrite !Nat2Z.id. reflexivity. Qed.
Lemma be32_bytes v : Forall byte (be32 v).
Proof. unfold be32. repeat constructor; unfold byte; apply Z.mod_pos_bound; lia. Qed.
Local Ltac Zify.zify_post_hook ::= Z.div_mod_to_equations.
Lemma word_be16 a b v : 0 <= v < 65536 -> word (a ++ be16 v ++ b) (zlen a) = v.
Proof.
  intros H. unfold word. rewrite (zget_app2 a _ (zlen a)), (zget_app2 a _ (zlen a + 1)) by lia. rewrite Z.sub_diag. replace (zlen a + 1 - zlen a) with 1 by lia.
  rewrite (zget_app1 (be16 v) b 0), (zget_app1 (be16 v) b 1) by (change (zlen (be16 v)) with 2; lia).
  change (zget (be16 v) 0) with (Z.shiftr v 8 mod 256). change (zget (be16 v) 1) with (v mod 256). rewrite shr by lia. change (2 ^ 8) with 256. lia.
Qed.
Lemma addr_be32 a b v : 0 <= v < 4294967296 -> addr (a ++ be32 v ++ b) (zlen a) = v.
Proof.
  intros H. unfold addr, word. rewrite (zget_app2 a _ (zlen a)), (zget_app2 a _ (zlen a + 1)), (zget_app2 a _ (zlen a + 2)), (zget_app2 a _ (zlen a + 2 + 1)) by lia. rewrite Z.sub_diag. replace (zlen a + 1 - zlen a) with 1 by lia.
  replace (zlen a + 2 - zlen a) with 2 by lia. replace (zlen a + 2 + 1 - zlen a) with 3 by lia.
  rewrite (zget_app1 (be32 v) b 0), (zget_app1 (be32 v) b 1), (zget_app1 (be32 v) b 2), (zget_app1 (be32 v) b 3) by (change (zlen (be32 v)) with 4; lia).
  change (zget (be32 v) 0) with (Z.shiftr v 24 mod 256). change (zget (be32 v) 1) with (Z.shiftr v 16 mod 256).
  change (zget (be32 v) 2) with (Z.shiftr v 8 mod 256). change (zget (be32 v) 3) with (v mod 256).
  rewrite !shr by lia. change (2 ^ 8) with 256. change (2 ^ 16) with 65536. change (2 ^ 24) with 16777216. lia.
Qed.
Local Ltac Zify.zify_post_hook ::= idtac.

Lemma part_app_l a b o n : 0 <= o -> 0 <= n -> o + n <= zlen a -> part (a ++ b) o n = part a o n.
Proof.
  intros H0 H1 H2. apply zget_ext; [rewrite !zlen_part by (rewrite ?zlen_app; pose proof (zlen_nonneg b); lia); reflexivity|].
  intros i Hi. rewrite zlen_part in Hi by (rewrite ?zlen_app; pose proof (zlen_nonneg b); lia). rewrite !zget_part by lia. apply zget_app1. lia.
Qed.
Lemma part_app_r a b o n : zlen a <= o -> part (a ++ b) o n = part b (o - zlen a) n.
Proof.
  intros H. unfold part. f_equal. rewrite skipn_app. rewrite skipn_all2 by (unfold zlen in *; lia). cbn [app]. f_equal. unfold zlen in *. lia.
Qed.
Lemma part_all a n : n = zlen a -> part a 0 n = a.
Proof. intros ->. unfold part. cbn [skipn Z.to_nat]. apply firstn_all2. unfold zlen. lia. Qed.
Lemma zget_part_eq f g o n : part f o n = part g o n -> 0 <= o -> forall k, o <= k < o + n -> zget f k = zget g k.
Proof.
  intros E Ho k K. pose proof (f_equal (fun l => zget l (k - o)) E) as F. cbv beta in F. rewrite !zget_part in F by lia.
  replace (o + (k - o)) with k in F by lia. exact F.
Qed.

Lemma ttl_exceeded_spec w st i f : world_ok w -> 0 <= i < zlen (w_ifs w) -> Forall byte f -> wellformed f ->
  exists st' evs, send_ttl_exceeded w st i f = Some (st', evs) /\ f_arp st' = f_arp st /\ f_q st' = f_q st /\
    (icmp_error f -> evs = []) /\
    (evs = [] \/ exists g, evs = [EvIcmp i g] /\ time_exceeded w i f g) /\
    (~ icmp_error f -> (forall g, w_fsend w i g = false) -> 110 <= w_mtu w i -> evs <> []).
Proof.
  intros (WI & _) Hi HB HW. pose proof HW as (L & V & I & T & O & _). pose proof (ihl_range f HB) as IR. unfold send_ttl_exceeded.
  destruct (nth_error (w_ifs w) (Z.to_nat i)) as [x|] eqn:NX; [|apply nth_error_None in NX; unfold zlen in *; lia].
  assert (XO : iface_ok x) by (rewrite Forall_forall in WI; apply WI; eapply nth_error_In; exact NX). destruct XO as (MX & BX & CX).
  rewrite ihlb_ihl by assumption. cbv zeta. destruct (Z.ltb_spec (ihl f) 20) as [|_]; [lia|].
  change (rd16 f 16) with (total f).
  assert (SUP : exists b, (if (zget f 23 =? 1) && (ihl f <? total f)
                 then do t <- rd1 f (14 + ihl f); Some ((t =? 3) || (t =? 4) || (t =? 5) || (t =? 11) || (t =? 12))
                 else Some false) = Some b /\ (b = true <-> icmp_error f)).
  { unfold icmp_error, proto. destruct ((zget f 23 =? 1) && (ihl f <? total f)) eqn:Q.
    - rewrite rd1_in by lia. cbn [obind]. eexists. split; [reflexivity|]. set (t := zget f (14 + ihl f)). cbn [In]. lia.
    - exists false. split; [reflexivity|]. split; [discriminate|lia]. }
  destruct SUP as (b & -> & SB). cbn [obind]. destruct b.
  { exists st, []. split; [reflexivity|]. split; [reflexivity|]. split; [reflexivity|]. split; [reflexivity|]. split; [left; reflexivity|].
    intros NE. exfalso. apply NE, SB. reflexivity. }
  assert (NIE : ~ icmp_error f) by (intros H; apply SB in H; discriminate). clear SB.
  destruct (Z.ltb_spec (total f) (ihl f)) as [|_]; [lia|].
  assert (QE : (if total f <? ihl f + 8 then total f else ihl f + 8) = Z.min (total f) (ihl f + 8)) by (destruct (Z.ltb_spec (total f) (ihl f + 8)); lia).
  rewrite QE. set (q := Z.min (total f) (ihl f + 8)) in *. destruct (Z.ltb_spec 68 q) as [|_]; [lia|].
  rewrite mread_part by lia. cbn [obind]. set (quoted := part f 14 q). assert (LQ : zlen quoted = q) by (apply zlen_part; lia).
  assert (BQ : Forall byte quoted) by (apply part_bytes; assumption).
  set (body := [11; 0; 0; 0; 0; 0; 0; 0] ++ quoted). assert (LB : zlen body = 8 + q) by (unfold body; rewrite zlen_app, LQ; reflexivity).
  assert (BB : Forall byte body) by (apply Forall_app; split; [repeat constructor; unfold byte; lia|assumption]).
  destruct (filled_checksum_verifies body 2 BB) as (icmp & Ei & Ci & Li & Si); [lia|lia|reflexivity|lia|]. rewrite Ei. cbn [obind].
  assert (Bi : Forall byte icmp).
  { unfold fill_checksum, put16 in Ei. destruct (mwrite_spec body 2 (Checksum.be16 0)) as (m1 & E1 & L1 & _ & B1); [lia|change (zlen (Checksum.be16 0)) with 2; lia|].
    rewrite E1 in Ei. cbn [obind] in Ei. destruct (checksum m1) as [c|]; [|discriminate]. cbn [obind] in Ei.
    destruct (mwrite_spec m1 2 (Checksum.be16 c)) as (m2 & E2 & _ & _ & B2); [lia|change (zlen (Checksum.be16 c)) with 2; lia|].
    assert (m2 = icmp) by congruence. subst m2. apply B2; [|apply be16_bytes]. apply B1; [assumption|apply be16_bytes]. }
  assert (Oi : ones_complement_valid icmp).
  { destruct (checksum_accepts_iff_valid icmp Bi) as (c & Ec & _ & Hc); [lia|]. apply Hc. congruence. }
  set (tlen := u16 (28 + q)). assert (ET : tlen = 28 + q) by (unfold tlen, u16; apply Z.mod_small; lia).
  change (slice f 26 4) with (part f 26 4).
  assert (LS : zlen (part f 26 4) = 4) by (apply zlen_part; lia).
  set (ip0 := [69; zget f 15] ++ be16 tlen ++ be16 (f_id st) ++ [64; 0; 64; 1; 0; 0] ++ be32 (c_ip (i_conf x)) ++ part f 26 4).
  pose proof (zget_byte f 15 HB) as B15.
  assert (B0 : Forall byte ip0).
  { unfold ip0. apply Forall_app. split; [repeat constructor; unfold byte; lia|]. apply Forall_app. split; [apply be16_bytes|]. apply Forall_app. split; [apply be16_bytes|].
    apply Forall_app. split; [repeat constructor; unfold byte; lia|]. apply Forall_app. split; [apply be32_bytes|]. apply part_bytes. assumption. }
  assert (L0 : zlen ip0 = 20).
  { unfold ip0. rewrite !zlen_app, LS. reflexivity. }
  destruct (hdr20_spec ip0 B0 L0 eq_refl) as (ip & Ep & Lp & Sp & Op & Bp). rewrite Ep. cbn [obind].
  set (eth := if i_noneth x then repeat 0 14 else slice f 6 6 ++ i_mac x ++ be16 2048).
  assert (L6 : zlen (slice f 6 6) = 6) by (rewrite slice_part; apply zlen_part; lia).
  assert (LE : zlen eth = 14).
  { unfold eth. destruct (i_noneth x); [reflexivity|]. rewrite !zlen_app, L6, MX. reflexivity. }
  set (g := eth ++ ip ++ icmp). assert (LG : zlen g = 42 + q) by (unfold g; rewrite !zlen_app; lia).
  assert (GI : forall k, 14 <= k < 34 -> k <> 24 -> k <> 25 -> zget g k = zget ip0 (k - 14)).
  { intros k K K1 K2. unfold g. rewrite zget_app2 by lia. rewrite LE. rewrite zget_app1 by lia. apply Sp; lia. }
  assert (GC : forall k, 34 <= k -> k <> 36 -> k <> 37 -> zget g k = zget body (k - 34)).
  { intros k K K1 K2. unfold g. rewrite zget_app2 by lia. rewrite LE. rewrite zget_app2 by lia. rewrite Lp. rewrite Si by lia. f_equal. lia. }
  assert (TX : time_exceeded w i f g).
  { exists x. split; [exact NX|]. cbv zeta. fold q. split; [exact LG|]. split; [rewrite GI by lia; reflexivity|].
    split. { unfold total, word. rewrite !GI by lia. change (256 * zget ip0 (16 - 14) + zget ip0 (16 + 1 - 14)) with (word ip0 2).
      change 2 with (zlen [69; zget f 15]). unfold ip0. rewrite word_be16 by lia. exact ET. }
    split. { unfold word. rewrite !GI by lia. reflexivity. }
    split; [unfold ttl; rewrite GI by lia; reflexivity|]. split; [unfold proto; rewrite GI by lia; reflexivity|].
    split. { unfold src, addr, word. rewrite !GI by lia. change (65536 * (256 * zget ip0 (26 - 14) + zget ip0 (26 + 1 - 14)) + (256 * zget ip0 (26 + 2 - 14) + zget ip0 (26 + 2 + 1 - 14))) with (addr ip0 12).
      unfold ip0. rewrite !app_assoc. rewrite <- (app_assoc _ (be32 (c_ip (i_conf x)))).
      set (pre := ((([69; zget f 15] ++ be16 tlen) ++ be16 (f_id st)) ++ [64; 0; 64; 1; 0; 0])). change 12 with (zlen pre). apply addr_be32. apply CX. }
    split. { unfold dst, src, addr, word. rewrite !GI by lia.
      assert (P4 : forall j, 0 <= j < 4 -> zget ip0 (16 + j) = zget f (26 + j)).
      { intros j J. unfold ip0. rewrite !app_assoc. set (pre := (((([69; zget f 15] ++ be16 tlen) ++ be16 (f_id st)) ++ [64; 0; 64; 1; 0; 0]) ++ be32 (c_ip (i_conf x)))).
        assert (LP : zlen pre = 16) by reflexivity. rewrite zget_app2 by lia. rewrite LP. replace (16 + j - 16) with j by lia. rewrite zget_part by lia. reflexivity. }
      replace (30 - 14) with (16 + 0) by lia. replace (30 + 1 - 14) with (16 + 1) by lia. replace (30 + 2 - 14) with (16 + 2) by lia. replace (30 + 2 + 1 - 14) with (16 + 3) by lia.
      rewrite !P4 by lia. reflexivity. }
    split; [rewrite GI by lia; reflexivity|].
    split. { unfold g. rewrite part_app_r by lia. replace (14 - zlen eth) with 0 by lia. rewrite part_app_l by lia. rewrite part_all by lia. exact Op. }
    split. { unfold g. rewrite part_app_r by lia. replace (34 - zlen eth) with 20 by lia. rewrite part_app_r by lia. replace (20 - zlen ip) with 0 by lia. rewrite part_all by lia. exact Oi. }
    split; [rewrite GC by lia; reflexivity|]. split; [rewrite GC by lia; reflexivity|].
    split. { apply zget_ext; [rewrite !zlen_part by lia; reflexivity|]. intros k K. rewrite zlen_part in K by lia. rewrite !zget_part by lia. rewrite GC by lia.
      unfold body. rewrite zget_app2 by (change (zlen [11; 0; 0; 0; 0; 0; 0; 0]) with 8; lia). change (zlen [11; 0; 0; 0; 0; 0; 0; 0]) with 8. unfold quoted. rewrite zget_part by lia. f_equal. lia. }
    intros NE. assert (EE : eth = part f 6 6 ++ i_mac x ++ be16 2048) by (unfold eth; rewrite NE; reflexivity).
    assert (L6' : zlen (part f 6 6) = 6) by (apply zlen_part; lia).
    unfold g. rewrite EE, <- !app_assoc. split; [|split].
    - rewrite part_app_l by lia. apply part_all. lia.
    - rewrite part_app_r by lia. replace (6 - zlen (part f 6 6)) with 0 by lia. rewrite part_app_l by lia. apply part_all. lia.
    - rewrite app_assoc. replace 12 with (zlen (part f 6 6 ++ i_mac x)) by (rewrite zlen_app; lia). apply word_be16. lia. }
  clearbody g. clear GI GC.
  destruct (w_fsend w i g) eqn:QF; [|destruct (Z.ltb_spec (w_mtu w i) (zlen g))].
  - eexists _, []. split; [reflexivity|]. split; [reflexivity|]. split; [reflexivity|]. split; [reflexivity|]. split; [left; reflexivity|].
    intros _ HF. rewrite HF in QF. discriminate.
  - eexists _, []. split; [reflexivity|]. split; [reflexivity|]. split; [reflexivity|]. split; [reflexivity|]. split; [left; reflexivity|].
    intros _ _ HM. lia.
  - eexists _, [EvIcmp i g]. split; [reflexivity|]. split; [reflexivity|]. split; [reflexivity|]. split; [intros HX; contradiction|].
    split; [right; exists g; auto|]. intros _ _ _. discriminate.
Qed.

(** ** Relaying *)
Definition handed_up (f : list Z) (evs : list ev) : Prop :=
  (20 < ihl f /\ 1536 < zlen f /\ evs = []) \/ (exists g, evs = [EvUp g] /\ delivered f g).

Definition mac_ok (m : list Z) : Prop := zlen m = 6 /\ Forall byte m.
Lemma relay_spec w f out x mac : world_ok w -> Forall byte f -> wellformed f -> 2 <= ttl f -> mac_ok mac ->
  nth_error (w_ifs w) (Z.to_nat out) = Some x ->
  exists g1, dec_ttl (part f 0 (14 + total f)) = Some g1 /\
  (forward_packet w out g1 mac = [] \/
   exists g, forward_packet w out g1 mac = [EvForward out g] /\ relayed f g /\
     (i_noneth x = false -> part g 0 6 = mac /\ part g 6 6 = i_mac x /\ word g 12 = 2048)) /\
  ((forall g, w_fsend w out g = false) -> 14 + total f <= w_mtu w out -> forward_packet w out g1 mac <> []).
Proof.
  intros (WI & _) HB HW HT (LM & BM) NX. pose proof HW as (L & V & I & T & O & _).
  assert (XO : iface_ok x) by (rewrite Forall_forall in WI; apply WI; eapply nth_error_In; exact NX). destruct XO as (MX & BX & _).
  set (f0 := part f 0 (14 + total f)). assert (L0 : zlen f0 = 14 + total f) by (apply zlen_part; lia).
  assert (G0 : forall k, 0 <= k < 14 + total f -> zget f0 k = zget f k) by (intros k K; unfold f0; rewrite zget_part by lia; reflexivity).
  assert (I0 : ihl f0 = ihl f) by (unfold ihl; rewrite G0 by lia; reflexivity).
  destruct (dec_ttl_spec f0) as (g1 & E1 & L1 & T1 & S1 & O1 & B1); [apply part_bytes; assumption|lia|rewrite G0 by lia; assumption|lia|lia|rewrite G0 by lia; exact HT|].
  exists g1. split; [exact E1|]. unfold forward_packet. rewrite NX.
  set (g := if i_noneth x then g1 else mac ++ i_mac x ++ be16 2048 ++ skipn 14 g1).
  assert (LS : zlen (skipn 14 g1) = zlen g1 - 14) by (change 14%nat with (Z.to_nat 14); apply zlen_skipn; lia).
  assert (LG : zlen g = 14 + total f).
  { unfold g. destruct (i_noneth x); [lia|]. rewrite !zlen_app, LM, MX, LS. change (zlen (be16 2048)) with 2. lia. }
  assert (GG : forall k, 14 <= k -> zget g k = zget g1 k).
  { intros k K. unfold g. destruct (i_noneth x); [reflexivity|]. rewrite !app_assoc. rewrite zget_app2; rewrite !zlen_app, LM, MX; change (zlen (be16 2048)) with 2; [|lia].
    rewrite zget_skipn by lia. f_equal. lia. }
  assert (BG : Forall byte g).
  { unfold g. destruct (i_noneth x); [assumption|]. apply Forall_app. split; [assumption|]. apply Forall_app. split; [assumption|].
    apply Forall_app. split; [apply be16_bytes|]. apply Forall_skipn. assumption. }
  assert (RG : relayed f g).
  { unfold relayed, ttl. split; [exact LG|]. split; [exact HT|]. split; [rewrite GG, T1, G0 by lia; reflexivity|]. split; [|split; [|exact BG]].
    - intros k K K1 K2 K3. rewrite GG, S1, G0 by lia. reflexivity.
    - assert (IG : ihl g = ihl g1) by (unfold ihl; rewrite GG by lia; reflexivity). rewrite IG.
      assert (PG : part g 14 (ihl g1) = part g1 14 (ihl g1)).
      { assert (I1 : ihl g1 = ihl f) by (unfold ihl; rewrite S1, G0 by lia; reflexivity).
        apply zget_ext; [rewrite !zlen_part by lia; reflexivity|]. intros k K. rewrite zlen_part in K by lia. rewrite !zget_part by lia. apply GG. lia. }
      rewrite PG. exact O1. }
  assert (AG : i_noneth x = false -> part g 0 6 = mac /\ part g 6 6 = i_mac x /\ word g 12 = 2048).
  { intros NE. unfold g. rewrite NE. split; [|split].
    - rewrite part_app_l by lia. apply part_all. lia.
    - rewrite part_app_r by lia. replace (6 - zlen mac) with 0 by lia. rewrite part_app_l by lia. apply part_all. lia.
    - rewrite app_assoc. replace 12 with (zlen (mac ++ i_mac x)) by (rewrite zlen_app; lia). apply word_be16. lia. }
  clearbody g. destruct (w_fsend w out g) eqn:QF; [split; [left; reflexivity|]; intros HF; rewrite HF in QF; discriminate|].
  destruct (Z.ltb_spec (w_mtu w out) (zlen g)); [split; [left; reflexivity|]; intros _ HM; lia|].
  split; [right; exists g; auto|]. intros _ _. discriminate.
Qed.

(** ** ARP table facts *)
Definition nbs_ok (l : list nb) : Prop := Forall (fun n => mac_ok (n_mac n)) l.
Lemma nb0_ok : mac_ok (n_mac nb0).
Proof. split; [reflexivity|]. repeat constructor; unfold byte; lia. Qed.
Lemma index_nbs l i ip now : nbs_ok l -> nbs_ok (fst (arp_neighbor_index l i ip now)).
Proof.
  unfold nbs_ok. intros H. apply Forall_forall. intros n Hn. apply index_in in Hn. rewrite Forall_forall in H.
  destruct Hn as [Hn|[-> |(m & Hm & _ & ->)]]; [apply H; assumption|apply nb0_ok|apply (H m Hm)].
Qed.
Lemma index_found l i ip now m : snd (arp_neighbor_index l i ip now) = Some m ->
  exists n, In n (fst (arp_neighbor_index l i ip now)) /\ n_ip n = ip /\ n_if n = i /\ n_mac n = m.
Proof.
  induction l as [|x l IH]; cbn; [discriminate|]. destruct (nb_match x i ip) eqn:Q.
  - destruct ((n_ts x <=? now) && (120000 <? now - n_ts x)); cbn; [discriminate|]. intros H. injection H as <-.
    apply nb_match_iff in Q. eexists. split; [left; reflexivity|]. cbn. tauto.
  - destruct (arp_neighbor_index l i ip now) as [r o]. cbn in *. intros H. destruct (IH H) as (n & N & R). exists n. split; [right; exact N|exact R].
Qed.
Lemma lookup_spec st i ip a m : arp_lookup st i ip = (a, m) -> nbs_ok (a_nbs st) -> nbs_ok (a_nbs a) /\
  match m with Some mac => mac_ok mac /\ exists n, In n (a_nbs a) /\ n_ip n = ip /\ n_if n = i /\ n_mac n = mac | None => True end.
Proof.
  unfold arp_lookup. intros H HN. pose proof (index_nbs (a_nbs st) i ip (a_tick st) HN) as H1. pose proof (index_found (a_nbs st) i ip (a_tick st)) as H2.
  destruct (arp_neighbor_index (a_nbs st) i ip (a_tick st)) as [l o]. cbn in *. injection H as <- <-. cbn [a_nbs]. split; [exact H1|].
  destruct o as [mac|]; [|exact I]. destruct (H2 mac eq_refl) as (n & N1 & N2 & N3 & N4). split; [|exists n; auto].
  unfold nbs_ok in H1. rewrite Forall_forall in H1. rewrite <- N4. apply (H1 n N1).
Qed.
Lemma request_nbs ifs st i ip : a_nbs (fst (arp_request ifs st i ip)) = a_nbs st.
Proof.
  unfold arp_request. destruct (nth_error ifs (Z.to_nat i)) as [x|]; [|reflexivity]. destruct (i_noneth x); [reflexivity|].
  destruct (negb (a_last st i =? 0) && (a_tick st <? a_last st i + 1000)); reflexivity.
Qed.
Lemma store_nbs l i ip mac now : nbs_ok l -> mac_ok mac -> nbs_ok (arp_store_neighbor l i ip mac now).
Proof.
  intros H HM. unfold nbs_ok, arp_store_neighbor. apply Forall_forall. intros n Hn. apply set_nth_in in Hn.
  destruct Hn as [-> |Hn]; [exact HM|]. unfold nbs_ok in H. rewrite Forall_forall in H. apply H. assumption.
Qed.
Lemma arp_recv_nbs ifs st i f dad : Forall byte f -> nbs_ok (a_nbs st) -> nbs_ok (a_nbs (fst (arp_recv ifs st i f dad))).
Proof.
  intros HB HN. unfold arp_recv. destruct (Z.ltb_spec (zlen f) 42); [exact HN|]. destruct (nth_error ifs (Z.to_nat i)) as [x|]; [|exact HN].
  destruct (i_noneth x); [exact HN|]. cbv zeta.
  match goal with |- context [if ?c then (st, ArpNone) else _] => destruct c end; [exact HN|].
  match goal with |- context [if ?c then (st, ArpNone) else _] => destruct c end; [exact HN|].
  match goal with |- context [if ?c then (mkArp _ _ _ _, _) else _] => destruct c end.
  - cbn [fst a_nbs]. match goal with |- context [if ?c then _ else _] => destruct c end; [apply index_nbs; exact HN|exact HN].
  - destruct (rd16 f 20 =? 2); [|exact HN]. match goal with |- context [if ?c then _ else _] => destruct c end; [exact HN|].
    match goal with |- context [if ?c then (st, ArpNone) else _] => destruct c end; [exact HN|].
    destruct (arp_pending_match (a_pds st) i (rd32 f 28) (a_tick st)) as [pds b]. cbn [fst a_nbs]. destruct b; [|exact HN].
    apply store_nbs; [exact HN|]. split; [rewrite slice_part; apply zlen_part; lia|]. rewrite slice_part. apply part_bytes. assumption.
Qed.

(** ** The queue *)
Lemma queue_slot_spec q i d : forall k s r, queue_slot q i d k s = r ->
  (exists j e, nth_error q j = Some e /\ q_dest e = d /\ q_if e = i /\ r = Some (k + j)%nat) \/
  ((forall e, In e q -> ~ (q_dest e = d /\ q_if e = i)) /\
   ((s = None /\ (exists j e, nth_error q j = Some e /\ q_dest e = 0 /\ r = Some (k + j)%nat)) \/
    (r = s /\ (s = None -> forall e, In e q -> q_dest e <> 0)))).
Proof.
  induction q as [|e q IH]; intros k s r; cbn [queue_slot].
  - intros <-. right. split; [intros e []|]. right. split; [reflexivity|]. intros _ e [].
  - destruct ((q_dest e =? d) && (q_if e =? i)) eqn:Q.
    + intros <-. left. exists O, e. split; [reflexivity|]. split; [lia|]. split; [lia|]. f_equal. lia.
    + intros H. apply IH in H. destruct H as [(j & e' & N & D & F & R)|(N & R)].
      * left. exists (S j), e'. split; [exact N|]. split; [exact D|]. split; [exact F|]. rewrite R. f_equal. lia.
      * right. split; [intros e' [<- |HI]; [lia|apply N; exact HI]|].
        destruct s as [s|].
        -- destruct R as [(HX & _)|(R & _)]; [discriminate|]. right. split; [exact R|discriminate].
        -- destruct (Z.eqb_spec (q_dest e) 0) as [E0|E0].
           ++ destruct R as [(HX & _)|(R & _)]; [discriminate|]. left. split; [reflexivity|]. exists O, e. split; [reflexivity|]. split; [exact E0|]. rewrite R. f_equal. lia.
           ++ destruct R as [(_ & j & e' & N' & D' & R)|(R & HA)].
              ** left. split; [reflexivity|]. exists (S j), e'. split; [exact N'|]. split; [exact D'|]. rewrite R. f_equal. lia.
              ** right. split; [exact R|]. intros _ e' [<- |HI]; [exact E0|]. apply HA; [reflexivity|exact HI].
Qed.

(** The result of queueing frame [f] for ([i], [d]). *)
Definition queued (w : world) (q q' : list qent) (i d : Z) (f : list Z) : Prop :=
  (q' = q /\ (w_mtu w i < zlen f \/ forall e, In e q -> q_dest e <> 0 /\ ~ (q_dest e = d /\ q_if e = i))) \/
  (exists j old, nth_error q j = Some old /\ (q_dest old = 0 \/ (q_dest old = d /\ q_if old = i)) /\
                 q' = set_nth j (mkQ d i f) q).
Lemma queue_spec w q i d f : (forall i, w_mtu w i <= 1536) -> 0 <= i < 256 -> 0 < zlen f ->
  exists q', arp_queue_packet w q i d f = Some q' /\ queued w q q' i d f.
Proof.
  intros HM Hi HL. unfold arp_queue_packet. destruct (Z.eqb_spec (zlen f) 0); [lia|]. destruct (Z.ltb_spec (w_mtu w i) (zlen f)).
  { exists q. split; [reflexivity|]. left. split; [reflexivity|]. left. assumption. }
  pose proof (queue_slot_spec q i d 0 None _ eq_refl) as QS. destruct (queue_slot q i d 0 None) as [s|].
  - specialize (HM i). destruct (Z.ltb_spec 1536 (zlen f)); [lia|]. eexists. split; [reflexivity|]. right.
    assert (U : u8 i = i) by (unfold u8; apply Z.mod_small; lia). rewrite U.
    destruct QS as [(j & e & N & D & F & R)|(_ & [(_ & j & e & N & D & R)|(HX & _)])]; [| |discriminate].
    + injection R as ->. exists j, e. cbn [Nat.add]. split; [exact N|]. split; [right; auto|reflexivity].
    + injection R as ->. exists j, e. cbn [Nat.add]. split; [exact N|]. split; [left; auto|reflexivity].
  - exists q. split; [reflexivity|]. left. split; [reflexivity|]. right.
    destruct QS as [(j & e & N & D & F & R)|(NM & [(_ & j & e & N & D & R)|(_ & HA)])]; [discriminate|discriminate|].
    intros e HI. split; [apply HA; [reflexivity|exact HI]|apply NM; exact HI].
Qed.
