(** C14: TCP option parsing is total, bounded and exact. *)
From Verif Require Import Base ListUtil Bits Arp HttpUrl Seq SeqProps TcpOptSpec TcpOpts.

Lemma app_eq_len {A} (a a' b b' : list A) : zlen a = zlen a' -> a ++ b = a' ++ b' -> a = a' /\ b = b'.
Proof.
  revert a'; induction a as [|x a IH]; intros [|x' a'] L E; cbn [app] in *.
  - auto.
  - rewrite zlen_cons in L. change (zlen (@nil A)) with 0 in L. pose proof (zlen_nonneg a'). lia.
  - rewrite zlen_cons in L. change (zlen (@nil A)) with 0 in L. pose proof (zlen_nonneg a). lia.
  - rewrite !zlen_cons in L. injection E as -> E. destruct (IH a') as [-> ->]; [lia|exact E|auto].
Qed.
Lemma options_det : forall b l1, options b l1 -> forall l2, options b l2 -> l1 = l2.
Proof.
  induction 1; intros l2 D; inversion D; subst; try congruence.
  - apply IHoptions. assumption.
  - match goal with E : ?x ++ _ = ?y ++ _ |- _ => assert (ZL : zlen x = zlen y) by lia; destruct (app_eq_len _ _ _ _ ZL E) as [-> ->] end.
    f_equal. apply IHoptions. assumption.
  - exfalso. rewrite zlen_app in *. pose proof (zlen_nonneg d). pose proof (zlen_nonneg r). lia.
  - exfalso. rewrite zlen_app in *. pose proof (zlen_nonneg d). pose proof (zlen_nonneg r0). lia.
Qed.

Definition merge_po (po : popts) (l : list (Z * list Z)) : popts :=
  let opt_or {A} (a b : option A) := match a with Some v => Some v | None => b end in
  Po (opt_or (pick mss_of l) (po_mss po)) (opt_or (pick ws_of l) (po_ws po)) (po_sackok po || existsb sackok_of l)
     (opt_or (pick ts_of l) (po_ts po))
     (firstn 4 (po_sack po ++ filter block_ok (flat_map sack_of l))).
Definition learnt_of (po : popts) : learnt := Learnt (po_mss po) (po_ws po) (po_sackok po) (po_ts po) (po_sack po).
Lemma merge_nil po : zlen (po_sack po) <= 4 -> merge_po po [] = po.
Proof.
  intros H. destruct po as [a b c d e]. unfold merge_po. cbn [pick existsb flat_map filter po_mss po_ws po_sackok po_ts po_sack] in *.
  rewrite app_nil_r, orb_false_r, firstn_all2; [reflexivity|unfold zlen in *; lia].
Qed.
Lemma rd32_val32 d : rd32 d 0 = val32 d 0.
Proof. unfold rd32, val32. lia. Qed.
Lemma seq_lt_block a b : 0 <= a < 4294967296 -> 0 <= b < 4294967296 -> tcp_seq_lt a b = block_ok (a, b).
Proof.
  intros Ha Hb. unfold tcp_seq_lt, tcp_seq_leq, block_ok. cbn [fst snd].
  destruct (Z.leb_spec a b).
  - rewrite (Z.mod_small (b - a)) by lia. lia.
  - assert (E : (b - a) mod 4294967296 = b - a + 4294967296) by (symmetry; apply (Z.mod_unique _ _ (-1)); lia). rewrite E. lia.
Qed.
Lemma val32_range d i : Forall byte d -> 0 <= val32 d i < 4294967296.
Proof.
  intros H. assert (F : forall j, 0 <= zget d j < 256).
  { intros j. unfold zget. destruct (nth_in_or_default (Z.to_nat j) d 0) as [I| ->]; [|lia].
    rewrite Forall_forall in H. exact (H _ I). }
  unfold val32. pose proof (F i). pose proof (F (i + 1)). pose proof (F (i + 2)). pose proof (F (i + 3)). lia.
Qed.

Lemma rd1_at (a c : list Z) x p : p = zlen a -> rd1 (a ++ x :: c) p = Some x.
Proof. intros ->. unfold rd1. change (a ++ x :: c) with (a ++ [x] ++ c). change 1 with (zlen [x]). rewrite mread_app. reflexivity. Qed.
Lemma rdm32_at (a d c : list Z) p : p = zlen a -> zlen d = 4 -> rdm32 (a ++ d ++ c) p = Some (val32 d 0).
Proof. intros -> L. unfold rdm32. rewrite <- L, mread_app. cbn [obind]. rewrite rd32_val32. reflexivity. Qed.
Lemma firstn_full {A} (l r : list A) n : (n <= length l)%nat -> firstn n (l ++ r) = firstn n l.
Proof. intros. rewrite firstn_app. replace (n - length l)%nat with O by lia. rewrite firstn_O, app_nil_r. reflexivity. Qed.

Lemma sack_loop_exact : forall n a d c p acc, p = zlen a -> zlen d = 8 * Z.of_nat n -> Forall byte d -> zlen acc <= 4 ->
  sack_loop n (a ++ d ++ c) p acc = Some (firstn 4 (acc ++ filter block_ok (pairs8 d))).
Proof.
  induction n as [|n IH]; intros a d c p acc Hp Hd HB Ha; cbn [sack_loop].
  - rewrite (zlen_zero d) by lia. cbn [pairs8 filter]. rewrite app_nil_r, firstn_all2; [reflexivity|unfold zlen in *; lia].
  - destruct (zlen acc <? 4) eqn:E; cbn [negb].
    2:{ f_equal. rewrite firstn_full, firstn_all2; [reflexivity|unfold zlen in *; lia|unfold zlen in *; lia]. }
    do 8 (destruct d as [|? d]; [rewrite ?zlen_cons in Hd; change (zlen (@nil Z)) with 0 in Hd; lia|]). rewrite !zlen_cons in Hd.
    set (d1 := [z; z0; z1; z2]). set (d2 := [z3; z4; z5; z6]).
    change (z :: z0 :: z1 :: z2 :: z3 :: z4 :: z5 :: z6 :: d) with (d1 ++ d2 ++ d).
    assert (B1 : Forall byte d1) by (repeat (inversion HB as [|? ? ? HB']; subst; clear HB; rename HB' into HB); unfold d1; auto).
    assert (B2 : Forall byte d2) by (do 4 (inversion HB as [|? ? ? HB']; subst; clear HB; rename HB' into HB); repeat (inversion HB as [|? ? ? HB']; subst; clear HB; rename HB' into HB); unfold d2; auto).
    assert (B3 : Forall byte d) by (do 8 (inversion HB as [|? ? ? HB']; subst; clear HB; rename HB' into HB); exact HB).
    replace (a ++ (d1 ++ d2 ++ d) ++ c) with (a ++ d1 ++ (d2 ++ d ++ c)) by (rewrite <- !app_assoc; reflexivity).
    rewrite rdm32_at by (auto || reflexivity). cbn [obind].
    replace (a ++ d1 ++ (d2 ++ d ++ c)) with ((a ++ d1) ++ d2 ++ (d ++ c)) by (rewrite <- !app_assoc; reflexivity).
    rewrite rdm32_at; [|rewrite zlen_app; change (zlen d1) with 4; lia|reflexivity]. cbn [obind].
    rewrite seq_lt_block by (apply val32_range; assumption).
    replace ((a ++ d1) ++ d2 ++ (d ++ c)) with ((a ++ d1 ++ d2) ++ d ++ c) by (rewrite <- !app_assoc; reflexivity).
    assert (Hp' : p + 8 = zlen (a ++ d1 ++ d2)) by (rewrite !zlen_app; change (zlen d1) with 4; change (zlen d2) with 4; lia).
    change (pairs8 (d1 ++ d2 ++ d)) with ((val32 d1 0, val32 d2 0) :: pairs8 d). cbn [filter].
    destruct (block_ok (val32 d1 0, val32 d2 0)).
    + rewrite IH; [|exact Hp'|lia|exact B3|rewrite zlen_app; change (zlen [(val32 d1 0, val32 d2 0)]) with 1; lia].
      rewrite <- app_assoc. reflexivity.
    + rewrite IH; [reflexivity|exact Hp'|lia|exact B3|exact Ha].
Qed.

Lemma firstn_idem_app {A} (n : nat) (l r : list A) : firstn n (firstn n l ++ r) = firstn n (l ++ r).
Proof.
  rewrite !firstn_app, firstn_firstn, Nat.min_id. f_equal. rewrite firstn_length.
  destruct (Nat.le_gt_cases (length l) n).
  - rewrite Nat.min_r by assumption. reflexivity.
  - rewrite Nat.min_l by lia. replace (n - n)%nat with O by lia. replace (n - length l)%nat with O by lia. reflexivity.
Qed.
Definition one (po : popts) (o : Z * list Z) : popts := merge_po po [o].
Lemma merge_cons po o l : merge_po po (o :: l) = merge_po (one po o) l.
Proof.
  unfold one, merge_po. cbn [pick existsb flat_map filter po_mss po_ws po_sackok po_ts po_sack]. rewrite !orb_false_r, app_nil_r.
  f_equal.
  - destruct (pick mss_of l); reflexivity.
  - destruct (pick ws_of l); reflexivity.
  - apply orb_assoc.
  - destruct (pick ts_of l); reflexivity.
  - rewrite firstn_idem_app, <- app_assoc, <- filter_app. reflexivity.
Qed.
Lemma one_sack po o : zlen (po_sack (one po o)) <= 4.
Proof. unfold one, merge_po, zlen. cbn [po_sack]. rewrite firstn_length. lia. Qed.
Lemma val16_pos d : Forall byte d -> 0 <= val16 d.
Proof.
  intros H. unfold val16. assert (F : forall j, 0 <= zget d j < 256).
  { intros j. unfold zget. destruct (nth_in_or_default (Z.to_nat j) d 0) as [I| ->]; [|lia].
    rewrite Forall_forall in H. exact (H _ I). }
  pose proof (F 0). pose proof (F 1). lia.
Qed.

Lemma opt_loop_exact : forall n fuel a b c po, (length b <= n)%nat -> (length b < fuel)%nat -> Forall byte b -> zlen (po_sack po) <= 4 ->
  exists l, options b l /\ opt_loop fuel (a ++ b ++ c) (zlen a) (zlen a + zlen b) po = Some (merge_po po l).
Proof.
  induction n as [|n IH]; intros fuel a b c po Hn Hf HB HS; (destruct fuel as [|fuel]; [lia|]); cbn [opt_loop].
  - assert (b = []) as -> by (destruct b; [reflexivity|cbn in Hn; lia]). exists []. split; [constructor|].
    change (zlen (@nil Z)) with 0. rewrite Z.add_0_r, Z.ltb_irrefl. cbn [negb]. rewrite merge_nil by exact HS. reflexivity.
  - destruct b as [|k b].
    { exists []. split; [constructor|]. change (zlen (@nil Z)) with 0. rewrite Z.add_0_r, Z.ltb_irrefl. cbn [negb]. rewrite merge_nil by exact HS. reflexivity. }
    pose proof (zlen_nonneg b) as Nb. rewrite zlen_cons. destruct (zlen a <? zlen a + (1 + zlen b)) eqn:E0; [cbn [negb]|lia].
    change (a ++ (k :: b) ++ c) with (a ++ k :: (b ++ c)). rewrite rd1_at by reflexivity. cbn [obind].
    cbn [length] in Hn, Hf. inversion HB as [|? ? Bk Bb]; subst. unfold byte in Bk.
    destruct (Z.eqb_spec k 1) as [-> |K1].
    { replace (a ++ 1 :: b ++ c) with ((a ++ [1]) ++ b ++ c) by (rewrite <- app_assoc; reflexivity).
      destruct (IH fuel (a ++ [1]) b c po ltac:(lia) ltac:(lia) Bb HS) as (l & Hl & El). exists l. split; [constructor; exact Hl|].
      rewrite zlen_app in El. change (zlen [1]) with 1 in El. replace (zlen a + (1 + zlen b)) with (zlen a + 1 + zlen b) by lia. exact El. }
    destruct (Z.eqb_spec k 0) as [-> |K0].
    { exists []. split; [constructor|]. rewrite merge_nil by exact HS. reflexivity. }
    destruct b as [|olen b].
    { change (zlen (@nil Z)) with 0. destruct (zlen a + (1 + 0) <? zlen a + 2) eqn:E1; [|lia]. exists []. split; [constructor; assumption|]. rewrite merge_nil by exact HS. reflexivity. }
    rewrite zlen_cons in *. pose proof (zlen_nonneg b) as Nb2. destruct (zlen a + (1 + (1 + zlen b)) <? zlen a + 2) eqn:E1; [lia|].
    replace (a ++ k :: (olen :: b) ++ c) with ((a ++ [k]) ++ olen :: (b ++ c)) by (rewrite <- app_assoc; reflexivity).
    rewrite rd1_at by (rewrite zlen_app; reflexivity). cbn [obind].
    inversion Bb as [|? ? Bo Bb']; subst. unfold byte in Bo.
    destruct ((olen <? 2) || (zlen a + (1 + (1 + zlen b)) <? zlen a + olen)) eqn:E2.
    { exists []. split; [apply O_bad; auto; lia|]. rewrite merge_nil by exact HS. reflexivity. }
    destruct (split_at b (olen - 2) ltac:(lia)) as (d & r & -> & Ld & Lr).
    assert (Bd : Forall byte d) by (apply Forall_app in Bb'; tauto). assert (Br : Forall byte r) by (apply Forall_app in Bb'; tauto).
    set (F := (a ++ [k]) ++ olen :: (d ++ r) ++ c).
    assert (FD : F = (a ++ [k; olen]) ++ d ++ (r ++ c)) by (unfold F; rewrite <- !app_assoc; reflexivity).
    assert (FR : F = (a ++ k :: olen :: d) ++ r ++ c) by (unfold F; rewrite <- !app_assoc; cbn [app]; rewrite <- ?app_assoc; reflexivity).
    assert (P2 : zlen (a ++ [k; olen]) = zlen a + 2) by (rewrite zlen_app; reflexivity).
    destruct (IH fuel (a ++ k :: olen :: d) r c (one po (k, d))) as (l & Hl & El).
    { cbn [length] in Hn. rewrite app_length in Hn. lia. } { cbn [length] in Hf. rewrite app_length in Hf. lia. } { exact Br. } { apply one_sack. }
    exists ((k, d) :: l). split.
    { apply O_opt; auto. lia. }
    rewrite merge_cons, <- El, <- FR. replace (zlen (a ++ k :: olen :: d)) with (zlen a + olen) by (rewrite zlen_app, !zlen_cons; lia).
    rewrite zlen_app in *. replace (zlen a + (1 + (1 + (zlen d + zlen r)))) with (zlen a + olen + zlen r) by lia.
    match goal with |- obind ?e _ = _ => assert (X : e = Some (one po (k, d))); [|rewrite X; reflexivity] end.
    unfold one, merge_po. cbn [pick existsb flat_map]. rewrite orb_false_r, app_nil_r. unfold mss_of, ws_of, sackok_of, ts_of, sack_of. cbn [fst snd].
    rewrite Ld. clear P2. assert (P2 : zlen (a ++ [k; olen]) = zlen a + 2) by (rewrite zlen_app; reflexivity).
    assert (R1 : olen = 3 -> rd1 F (zlen a + 2) = Some (zget d 0)).
    { intros ->. destruct d as [|x [|y d]]; rewrite ?zlen_cons in Ld; [change (zlen (@nil Z)) with 0 in Ld; lia| |pose proof (zlen_nonneg d); lia].
      rewrite FD. change ([x] ++ r ++ c) with (x :: r ++ c). rewrite rd1_at by lia. reflexivity. }
    assert (R2 : mread F (zlen a + 2) (olen - 2) = Some d) by (rewrite FD, <- P2, <- Ld; apply mread_app).
    assert (R4 : olen = 10 -> rdm32 F (zlen a + 2) = Some (val32 d 0) /\ rdm32 F (zlen a + 6) = Some (val32 d 4)).
    { intros ->. destruct (split_at d 4 ltac:(lia)) as (d1 & d2 & -> & L1 & L2).
      assert (V1 : val32 (d1 ++ d2) 0 = val32 d1 0 /\ val32 (d1 ++ d2) 4 = val32 d2 0).
      { do 4 (destruct d1 as [|? d1]; [exfalso; rewrite ?zlen_cons in L1; change (zlen (@nil Z)) with 0 in L1; lia|]).
        rewrite !zlen_cons in L1. rewrite (zlen_zero d1) by lia. split; reflexivity. }
      destruct V1 as [-> ->]. split.
      - rewrite FD, <- (app_assoc d1 d2). apply rdm32_at; [lia|exact L1].
      - replace F with (((a ++ [k; 10]) ++ d1) ++ d2 ++ r ++ c) by (rewrite FD, <- !app_assoc; reflexivity). apply rdm32_at; [rewrite (zlen_app (a ++ [k; 10])); lia|lia]. }
    assert (ST : forall x, zlen x <= 4 -> firstn 4 (x ++ filter block_ok []) = x) by (intros x Hx; cbn [filter]; rewrite app_nil_r, firstn_all2; [reflexivity|unfold zlen in *; lia]).
    destruct (Z.eqb_spec k 3) as [-> |K3].
    { cbn [andb]. change (3 =? 2) with false. change (3 =? 4) with false. change (3 =? 5) with false. change (3 =? 8) with false. cbn [andb].
      rewrite ST by exact HS. rewrite orb_false_r.
      destruct (Z.eqb_spec olen 3) as [-> |O3].
      - rewrite R1 by reflexivity. cbn [obind]. change (3 - 2 =? 1) with true. replace (Z.min 14 (zget d 0)) with (if 14 <? zget d 0 then 14 else zget d 0) by (destruct (14 <? zget d 0) eqn:Q; lia). reflexivity.
      - destruct (olen - 2 =? 1) eqn:Q; [lia|]. destruct po; reflexivity. }
    destruct (Z.eqb_spec k 2) as [-> |K2'].
    { cbn [andb]. change (2 =? 4) with false. change (2 =? 5) with false. change (2 =? 8) with false. cbn [andb].
      rewrite ST by exact HS. rewrite orb_false_r.
      destruct (Z.eqb_spec olen 4) as [-> |O3].
      - change (4 - 2) with 2 in R2. rewrite R2. cbn [obind]. change (4 - 2 =? 2) with true. cbn [andb].
        change (rd16 d 0) with (val16 d). pose proof (val16_pos d Bd). destruct (0 <? val16 d) eqn:Q; destruct (val16 d =? 0) eqn:Q2; try lia; cbn [negb]; destruct po; reflexivity.
      - destruct (olen - 2 =? 2) eqn:Q; [lia|]. destruct po; reflexivity. }
    destruct (Z.eqb_spec k 4) as [-> |K4].
    { cbn [andb]. change (4 =? 5) with false. change (4 =? 8) with false. cbn [andb].
      rewrite ST by exact HS.
      destruct (Z.eqb_spec olen 2) as [-> |O3].
      - change (2 - 2 =? 0) with true. rewrite orb_true_r. destruct po; reflexivity.
      - destruct (olen - 2 =? 0) eqn:Q; [lia|]. rewrite orb_false_r. destruct po; reflexivity. }
    destruct (Z.eqb_spec k 5) as [-> |K5].
    { cbn [andb]. change (5 =? 8) with false. cbn [andb]. rewrite orb_false_r.
      destruct (Z.eqb_spec ((olen - 2) mod 8) 0) as [M|M].
      - destruct (Z.leb_spec 10 olen) as [T|T]; cbn [andb].
        + rewrite FD. rewrite sack_loop_exact; [cbn [obind]; reflexivity|lia| |exact Bd|exact HS].
          rewrite Z2Nat.id; [|apply Z.div_pos; lia]. pose proof (Z.div_mod (olen - 2) 8 ltac:(lia)). lia.
        + rewrite andb_false_l || idtac. assert (olen = 2) as -> by (pose proof (Z.div_mod (olen - 2) 8 ltac:(lia)); lia).
          rewrite (zlen_zero d) by lia. cbn [pairs8]. rewrite ST by exact HS. destruct po; reflexivity.
      - rewrite andb_false_r. rewrite ST by exact HS. destruct po; reflexivity. }
    cbn [andb]. destruct (Z.eqb_spec k 8) as [-> |K8]; cbn [andb]; rewrite ST by exact HS; rewrite orb_false_r.
    + destruct (Z.eqb_spec olen 10) as [-> |O3].
      * destruct (R4 eq_refl) as [-> ->]. cbn [obind]. reflexivity.
      * destruct (olen - 2 =? 8) eqn:Q; [lia|]. destruct po; reflexivity.
    + destruct po; reflexivity.
Qed.

(** ** The parser *)
(** The option area of a frame: after the 54 header bytes, as long as the data offset
    (upper half of byte 46, in 32-bit words) claims but not beyond the frame. *)
Definition opt_area (frame : list Z) (frame_len : Z) : list Z :=
  firstn (Z.to_nat (Z.min (4 * (zget frame 46 / 16) - 20) (frame_len - 54))) (skipn 54 frame).

Lemma data_offset hlen : 0 <= hlen < 256 -> tcp_data_offset_bytes hlen = 4 * (hlen / 16).
Proof.
  intros H. assert (T : (tcp_data_offset_bytes hlen =? 4 * (hlen / 16)) = true); [|lia].
  assert (F : forallb (fun c => tcp_data_offset_bytes c =? 4 * (c / 16)) (map Z.of_nat (seq 0 256)) = true) by (vm_compute; reflexivity).
  rewrite forallb_forall in F. apply F. apply in_map_iff. exists (Z.to_nat hlen). split; [lia|]. apply in_seq. lia.
Qed.

(** C14: parsing any frame terminates, reads only inside the frame, and reports exactly
    what the options present in the option area say. *)
Theorem tcp_options_exact : forall frame frame_len, Forall byte frame -> 54 <= zlen frame -> frame_len <= zlen frame ->
  exists l po, options (opt_area frame frame_len) l /\ tcp_parse_options frame frame_len = Some po /\ learnt_of po = learn l.
Proof.
  intros frame flen HB H54 HL. unfold tcp_parse_options, opt_area.
  assert (HR : rd1 frame 46 = Some (zget frame 46)).
  { destruct (split_at frame 46 ltac:(lia)) as (a & b & -> & La & Lb). destruct b as [|x b]; [change (zlen (@nil Z)) with 0 in Lb; lia|].
    rewrite rd1_at by lia. f_equal. unfold zget. rewrite app_nth2 by (unfold zlen in La; lia). replace (Z.to_nat 46 - length a)%nat with O by (unfold zlen in La; lia). reflexivity. }
  rewrite HR. cbn [obind].
  assert (BX : 0 <= zget frame 46 < 256).
  { unfold zget. destruct (nth_in_or_default (Z.to_nat 46) frame 0) as [I|E]; [|rewrite E; lia]. rewrite Forall_forall in HB. exact (HB _ I). }
  rewrite data_offset by exact BX. set (cl := 4 * (zget frame 46 / 16) - 20).
  destruct ((cl <=? 0) || (flen - 54 <=? 0)) eqn:E.
  - exists [], po0. split; [|split; reflexivity]. replace (Z.to_nat (Z.min cl (flen - 54))) with O by lia. constructor.
  - replace (if cl <? flen - 54 then cl else flen - 54) with (Z.min cl (flen - 54)) by (destruct (cl <? flen - 54) eqn:Q; lia).
    set (n := Z.min cl (flen - 54)). assert (Hn : 0 < n <= zlen frame - 54) by lia.
    destruct (split_at frame 54 ltac:(lia)) as (a & b & -> & La & Lb). destruct (split_at b n ltac:(lia)) as (o & c & -> & Lo & Lc).
    assert (SK : skipn 54 (a ++ o ++ c) = o ++ c).
    { rewrite skipn_app. replace (54 - length a)%nat with O by (unfold zlen in La; lia). rewrite skipn_all2 by (unfold zlen in La; lia). reflexivity. }
    rewrite SK. replace (Z.to_nat n) with (length o) by (unfold zlen in Lo; lia).
    rewrite firstn_app, firstn_all, Nat.sub_diag, firstn_O, app_nil_r.
    destruct (opt_loop_exact (length o) (S (length o)) a o c po0) as (l & Hl & El); [lia|lia| |cbn; lia|].
    { apply Forall_app in HB. destruct HB as [_ HB]. apply Forall_app in HB. tauto. }
    rewrite La, Lo in El. exists l, (merge_po po0 l). split; [exact Hl|]. split; [exact El|].
    unfold learnt_of, merge_po, learn. cbn [po_mss po_ws po_sackok po_ts po_sack po0 orb app].
    destruct (pick mss_of l), (pick ws_of l), (pick ts_of l); reflexivity.
Qed.
(** ... and the options present are determined by the bytes. *)
Theorem tcp_options_unambiguous : forall b l1 l2, options b l1 -> options b l2 -> l1 = l2.
Proof. intros b l1 l2 H1 H2. exact (options_det b l1 H1 l2 H2). Qed.

(** Options of a well-formed list, with NOPs between them or not, are all found. *)
Inductive wf_area : list Z -> list (Z * list Z) -> Prop :=
| W_nil : wf_area [] []
| W_end r : wf_area (0 :: r) []
| W_nop r l : wf_area r l -> wf_area (1 :: r) l
| W_opt k d r l : k <> 0 -> k <> 1 -> wf_area r l -> wf_area ([k; 2 + zlen d] ++ d ++ r) ((k, d) :: l).
Lemma wf_options b l : wf_area b l -> options b l.
Proof. induction 1; [constructor|constructor|constructor; assumption|]. exact (O_opt k (2 + zlen d) d r l H H0 eq_refl IHwf_area). Qed.

(** A frame: 54 header bytes with header length byte [hl], options, payload. *)
Definition is_frame (frame opts payload : list Z) : Prop :=
  exists h, zlen h = 54 /\ zget h 46 = hlen_byte (zlen opts) /\ frame = h ++ opts ++ payload.
Lemma hlen_byte_ok n : 0 <= n <= 40 -> n mod 4 = 0 -> 4 * (hlen_byte n / 16) - 20 = n.
Proof.
  intros H M. assert (F : forallb (fun c => if c mod 4 =? 0 then 4 * (hlen_byte c / 16) - 20 =? c else true) (map Z.of_nat (seq 0 41)) = true) by (vm_compute; reflexivity).
  rewrite forallb_forall in F. specialize (F n). cbv beta in F. rewrite M in F. change (0 =? 0) with true in F. cbv iota in F. apply Z.eqb_eq. apply F. apply in_map_iff. exists (Z.to_nat n). split; [lia|]. apply in_seq. lia.
Qed.
Lemma frame_parses frame opts payload l : is_frame frame opts payload -> Forall byte frame -> zlen opts <= 40 -> zlen opts mod 4 = 0 ->
  options opts l -> exists po, tcp_parse_options frame (zlen frame) = Some po /\ learnt_of po = learn l.
Proof.
  intros (h & Lh & Hh & EF) HB L40 M4 HO. pose proof (zlen_nonneg opts). pose proof (zlen_nonneg payload).
  assert (LF : zlen frame = 54 + (zlen opts + zlen payload)) by (subst frame; rewrite !zlen_app; lia).
  destruct (tcp_options_exact frame (zlen frame) HB ltac:(lia) ltac:(lia)) as (l' & po & Hl & EP & EL).
  exists po. split; [exact EP|]. rewrite EL. f_equal. apply (options_det opts); [|exact HO].
  replace (opt_area frame (zlen frame)) with opts in Hl; [exact Hl|]. unfold opt_area.
  replace (zget frame 46) with (hlen_byte (zlen opts)).
  2:{ subst frame. unfold zget. rewrite app_nth1 by (unfold zlen in Lh; lia). symmetry. exact Hh. }
  rewrite hlen_byte_ok by lia. replace (Z.min (zlen opts) (zlen frame - 54)) with (zlen opts) by lia.
  subst frame. rewrite skipn_app. replace (54 - length h)%nat with O by (unfold zlen in Lh; lia). rewrite skipn_all2 by (unfold zlen in Lh; lia). cbn [skipn app].
  unfold zlen. rewrite Nat2Z.id, firstn_app, firstn_all, Nat.sub_diag, firstn_O, app_nil_r. reflexivity.
Qed.
Theorem tcp_options_all_found : forall frame opts payload l, is_frame frame opts payload -> Forall byte frame ->
  zlen opts <= 40 -> zlen opts mod 4 = 0 -> wf_area opts l ->
  exists po, tcp_parse_options frame (zlen frame) = Some po /\ learnt_of po = learn l.
Proof. intros frame opts payload l HF HB L M W. apply (frame_parses frame opts payload); auto. apply wf_options. exact W. Qed.

(** ** Construction: what the stack sends is well formed and parses back. *)
Lemma shr8 v k : 0 <= k -> Z.shiftr v k = v / 2 ^ k.
Proof. intros. apply Z.shiftr_div_pow2. assumption. Qed.
Lemma be32_val v : 0 <= v < 4294967296 -> val32 (be32 v) 0 = v.
Proof.
  intros H. change (val32 (be32 v) 0) with (16777216 * (Z.shiftr v 24 mod 256) + 65536 * (Z.shiftr v 16 mod 256) + 256 * (Z.shiftr v 8 mod 256) + v mod 256).
  rewrite !shr8 by lia. change (2 ^ 24) with 16777216. change (2 ^ 16) with 65536. change (2 ^ 8) with 256.
  assert (D2 : v / 65536 = v / 256 / 256) by (rewrite Z.div_div by lia; reflexivity).
  assert (D3 : v / 16777216 = v / 256 / 256 / 256) by (rewrite !Z.div_div by lia; reflexivity). rewrite D2, D3. clear D2 D3. set (a := v / 256). set (b := a / 256). set (c := b / 256).
  assert (A : v = 256 * a + v mod 256) by (apply Z.div_mod; lia). assert (B : a = 256 * b + a mod 256) by (apply Z.div_mod; lia). assert (C : b = 256 * c + b mod 256) by (apply Z.div_mod; lia).
  assert (R : c < 256 /\ 0 <= c) by (unfold c, b, a; clear -H; rewrite !Z.div_div by lia; split; [apply Z.div_lt_upper_bound; lia|apply Z.div_pos; lia]).
  rewrite (Z.mod_small c) by lia. clearbody a b c. clear H. generalize dependent (v mod 256). generalize dependent (a mod 256). generalize dependent (b mod 256). intros; lia.
Qed.
Lemma be32_byte v : Forall byte (be32 v).
Proof. unfold be32, byte. repeat constructor; try apply Z.mod_pos_bound; lia. Qed.
Lemma be16_val v : 0 <= v < 65536 -> val16 (be16 v) = v.
Proof.
  intros H. unfold be16, val16.
  change (zget [Z.shiftr v 8 mod 256; v mod 256] 0) with (Z.shiftr v 8 mod 256).
  change (zget [Z.shiftr v 8 mod 256; v mod 256] 1) with (v mod 256).
  rewrite shr8 by lia. change (2 ^ 8) with 256. lia.
Qed.
Lemma val32_app8 a b : 0 <= a < 4294967296 -> 0 <= b < 4294967296 -> val32 (be32 a ++ be32 b) 0 = a /\ val32 (be32 a ++ be32 b) 4 = b.
Proof. intros Ha Hb. split; [exact (be32_val a Ha)|exact (be32_val b Hb)]. Qed.
Lemma pad_spec : forall o max, zlen o mod 4 = 0 \/ 4 * ((zlen o + 3) / 4) <= max ->
  exists n, (n < 4)%nat /\ pad_nop 4 o max = o ++ repeat 1 n /\ zlen (pad_nop 4 o max) mod 4 = 0 /\ zlen (pad_nop 4 o max) <= Z.max max (zlen o).
Proof.
  intros o max H.
  assert (C : zlen o mod 4 = 0 \/ zlen o mod 4 = 1 \/ zlen o mod 4 = 2 \/ zlen o mod 4 = 3) by lia.
  assert (Z1 : zlen (o ++ [1]) = zlen o + 1) by (rewrite zlen_app; reflexivity).
  assert (Z2 : zlen ((o ++ [1]) ++ [1]) = zlen o + 2) by (rewrite !zlen_app; change (zlen [1]) with 1; lia).
  assert (Z3 : zlen (((o ++ [1]) ++ [1]) ++ [1]) = zlen o + 3) by (rewrite !zlen_app; change (zlen [1]) with 1; lia).
  unfold pad_nop. rewrite Z1, Z2, Z3.
  destruct C as [C|[C|[C|C]]].
  - rewrite C. cbn [Z.eqb negb andb]. exists O. split; [lia|]. split; [cbn [repeat]; rewrite app_nil_r; reflexivity|]. lia.
  - exists 3%nat. destruct (negb (zlen o mod 4 =? 0) && (zlen o <? max)) eqn:Q1; [|lia].
    destruct (negb ((zlen o + 1) mod 4 =? 0) && (zlen o + 1 <? max)) eqn:Q2; [|lia].
    destruct (negb ((zlen o + 2) mod 4 =? 0) && (zlen o + 2 <? max)) eqn:Q3; [|lia].
    destruct (negb ((zlen o + 3) mod 4 =? 0) && (zlen o + 3 <? max)) eqn:Q4; [lia|].
    rewrite Z3. split; [lia|]. split; [rewrite <- !app_assoc; reflexivity|]. lia.
  - exists 2%nat. destruct (negb (zlen o mod 4 =? 0) && (zlen o <? max)) eqn:Q1; [|lia].
    destruct (negb ((zlen o + 1) mod 4 =? 0) && (zlen o + 1 <? max)) eqn:Q2; [|lia].
    destruct (negb ((zlen o + 2) mod 4 =? 0) && (zlen o + 2 <? max)) eqn:Q3; [lia|].
    rewrite Z2. split; [lia|]. split; [rewrite <- !app_assoc; reflexivity|]. lia.
  - exists 1%nat. destruct (negb (zlen o mod 4 =? 0) && (zlen o <? max)) eqn:Q1; [|lia].
    destruct (negb ((zlen o + 1) mod 4 =? 0) && (zlen o + 1 <? max)) eqn:Q2; [lia|].
    rewrite Z1. split; [lia|]. split; [reflexivity|]. lia.
Qed.
Lemma options_pad n : options (repeat 1 n) [].
Proof. induction n; cbn [repeat]; constructor; assumption. Qed.
Lemma blocks_len bs : zlen (flat_map block_bytes bs) = 8 * zlen bs.
Proof. induction bs as [|[a b] bs IH]; [reflexivity|]. cbn [flat_map]. rewrite zlen_app, zlen_cons, IH. change (zlen (block_bytes (a, b))) with 8. lia. Qed.
Lemma blocks_pairs bs : Forall (fun b => 0 <= fst b < 4294967296 /\ 0 <= snd b < 4294967296) bs -> pairs8 (flat_map block_bytes bs) = bs.
Proof.
  induction 1 as [|[a b] bs [H1 H2] _ IH]; [reflexivity|]. cbn [fst snd] in *.
  cbn [flat_map]. unfold block_bytes at 1. cbn [fst snd]. unfold be32 at 1 2. cbn [app pairs8].
  f_equal; [|exact IH]. f_equal; [exact (be32_val a H1)|exact (be32_val b H2)].
Qed.

Definition u32p (v : Z) : Prop := 0 <= v < 4294967296.
Lemma ts_bytes tick ecr r l : u32p ecr -> options r l ->
  options ([8; 10] ++ be32 (u32 tick) ++ be32 ecr ++ r) ((8, be32 (u32 tick) ++ be32 ecr) :: l).
Proof.
  intros He Hr. rewrite (app_assoc (be32 (u32 tick))). cbn [app]. apply (O_opt 8 10 (be32 (u32 tick) ++ be32 ecr)); try lia; [reflexivity|exact Hr].
Qed.
Lemma ts_learn tick ecr : u32p ecr -> ts_of (8, be32 (u32 tick) ++ be32 ecr) = Some (u32 tick, ecr).
Proof.
  intros He. unfold ts_of. cbn [fst snd]. change ((8 =? 8) && (zlen (be32 (u32 tick) ++ be32 ecr) =? 8)) with true. cbv iota.
  destruct (val32_app8 (u32 tick) ecr) as [-> ->]; [apply Z.mod_pos_bound; lia|exact He|reflexivity].
Qed.

(** An ACK carries exactly the timestamps and the SACK blocks (all of them, or the
    first three when timestamps take their place), in at most 40 bytes. *)
Theorem ack_options_round_trip : forall frame payload ts perm sack,
  let o := tcp_build_ack_options ts perm sack 40 in
  is_frame frame o payload -> Forall byte frame ->
  match ts with Some (_, ecr) => u32p ecr | None => True end ->
  zlen sack <= 4 -> Forall (fun b => u32p (fst b) /\ u32p (snd b) /\ block_ok b = true) sack ->
  zlen o <= 40 /\ zlen o mod 4 = 0 /\
  exists po, tcp_parse_options frame (zlen frame) = Some po /\
    learnt_of po = Learnt None None false (match ts with Some (tick, ecr) => Some (u32 tick, ecr) | None => None end)
      (if perm then firstn (match ts with Some _ => 3 | None => 4 end) sack else []).
Proof.
  intros frame payload ts perm sack o HF HB HT HS HV.
  set (n := match ts with Some _ => 3%nat | None => 4%nat end).
  set (bs := if perm then firstn n sack else []).
  assert (LB : zlen bs <= Z.of_nat n /\ zlen bs <= 4).
  { unfold bs, n, zlen in *. destruct perm; [rewrite firstn_length|cbn [length]]; destruct ts; lia. }
  assert (VB : Forall (fun b => u32p (fst b) /\ u32p (snd b) /\ block_ok b = true) bs).
  { unfold bs. destruct perm; [|constructor]. rewrite <- (firstn_skipn n sack) in HV. apply Forall_app in HV. tauto. }
  set (tsb := match ts with Some (tick, ecr) => [8; 10] ++ be32 (u32 tick) ++ be32 ecr | None => [] end).
  set (sb := if 0 <? zlen bs then [5; 2 + 8 * zlen bs] ++ flat_map block_bytes bs else []).
  assert (LT : zlen tsb = match ts with Some _ => 10 | None => 0 end) by (unfold tsb; destruct ts as [[? ?]|]; reflexivity).
  assert (LS : zlen sb = if 0 <? zlen bs then 2 + 8 * zlen bs else 0).
  { unfold sb. destruct (0 <? zlen bs); [|reflexivity]. rewrite zlen_app, blocks_len. reflexivity. }
  assert (EO : o = pad_nop 4 (tsb ++ sb) 40).
  { unfold o, tcp_build_ack_options. pose proof (zlen_nonneg sack) as NS. unfold tsb, sb, bs, n. destruct ts as [[tick ecr]|].
    - change (40 <? 10) with false. cbv iota. f_equal. change (zlen ([8; 10] ++ be32 (u32 tick) ++ be32 ecr)) with 10.
      change (u8 (10 + 10) <=? 40) with true. change (u8 ((40 - 10 - 2) / 8)) with 3. rewrite andb_true_r.
      destruct perm; cbn [andb]; [|change (zlen (@nil (Z * Z))) with 0; cbn; reflexivity].
      destruct (0 <? zlen sack) eqn:E0.
      + assert (M : firstn (Z.to_nat (if 3 <? zlen sack then 3 else zlen sack)) sack = firstn 3 sack /\ (if 3 <? zlen sack then 3 else zlen sack) = zlen (firstn 3 sack)).
        { unfold zlen. rewrite firstn_length. destruct (3 <? Z.of_nat (length sack)) eqn:Q; [split; [reflexivity|lia]|]. rewrite Nat2Z.id, firstn_all. rewrite firstn_all2 by lia. split; [reflexivity|lia]. }
        destruct M as [-> M]. rewrite M. assert (P : 0 < zlen (firstn 3 sack) <= 4) by (unfold zlen in *; rewrite firstn_length; lia).
        destruct (0 <? zlen (firstn 3 sack)) eqn:Q; [|lia]. unfold u8. rewrite Z.mod_small by lia. replace (2 + zlen (firstn 3 sack) * 8) with (2 + 8 * zlen (firstn 3 sack)) by lia. reflexivity.
      + rewrite (zlen_zero sack) by lia. change (zlen (firstn 3 (@nil (Z * Z)))) with 0. change (0 <? 0) with false. cbv iota. symmetry. apply app_nil_r.
    - f_equal. cbn [app]. change (u8 10 <=? 40) with true. change (u8 ((40 - 2) / 8)) with 4. rewrite andb_true_r.
      destruct perm; cbn [andb]; [|reflexivity].
      destruct (4 <? zlen sack) eqn:Q4; [lia|]. rewrite (@firstn_all2 _ 4 sack) by (unfold zlen in HS; lia). replace (firstn (Z.to_nat (zlen sack)) sack) with sack by (unfold zlen; rewrite Nat2Z.id, firstn_all; reflexivity).
      destruct (0 <? zlen sack) eqn:E0; [|reflexivity]. unfold u8. rewrite Z.mod_small by lia. replace (2 + zlen sack * 8) with (2 + 8 * zlen sack) by lia. reflexivity. }
  pose proof (zlen_nonneg bs) as NB.
  destruct (pad_spec (tsb ++ sb) 40) as (k & _ & EP & EM & EL).
  { right. rewrite zlen_app, LT, LS. unfold n in LB. destruct ts as [[? ?]|], (0 <? zlen bs) eqn:Q; lia. }
  rewrite <- EO in EP, EM, EL.
  assert (L40 : zlen o <= 40).
  { rewrite zlen_app, LT, LS in EL. unfold n in LB. destruct ts as [[? ?]|], (0 <? zlen bs) eqn:Q; lia. }
  split; [exact L40|]. split; [exact EM|].
  set (lt := match ts with Some (tick, ecr) => [(8, be32 (u32 tick) ++ be32 ecr)] | None => [] end).
  set (ls := if 0 <? zlen bs then [(5, flat_map block_bytes bs)] else []).
  assert (HO : options o (lt ++ ls)).
  { rewrite EP. assert (HS' : options (sb ++ repeat 1 k) ls).
    { unfold sb, ls. destruct (0 <? zlen bs); [|apply options_pad]. rewrite <- app_assoc. cbn [app]. apply O_opt; [lia|lia| |apply options_pad]. rewrite blocks_len. reflexivity. }
    unfold tsb, lt. destruct ts as [[tick ecr]|]; [|exact HS']. rewrite <- !app_assoc. apply ts_bytes; assumption. }
  destruct (frame_parses frame o payload (lt ++ ls) HF HB L40 EM HO) as (po & EPO & ELN). exists po. split; [exact EPO|]. rewrite ELN.
  fold n. fold bs.
  assert (VP : Forall (fun b => 0 <= fst b < 4294967296 /\ 0 <= snd b < 4294967296) bs) by (eapply Forall_impl; [|exact VB]; intros b (A & B & _); split; assumption).
  assert (SA : firstn 4 (filter block_ok (flat_map sack_of ls)) = bs).
  { unfold ls. destruct (0 <? zlen bs) eqn:Q.
    - cbn [flat_map]. rewrite app_nil_r. unfold sack_of. cbn [fst snd]. rewrite blocks_len, Z.mul_comm, Z.mod_mul by lia. cbn [Z.eqb andb]. rewrite blocks_pairs by exact VP. change ((5 =? 5)%positive && true) with true. cbv iota.
      assert (FI : filter block_ok bs = bs). { clear -VB. induction VB as [|b bs (_ & _ & E) _ IH]; [reflexivity|]. cbn [filter]. rewrite E, IH. reflexivity. }
      rewrite FI. apply firstn_all2. unfold zlen in LB. lia.
    - rewrite (zlen_zero bs) by lia. reflexivity. }
  assert (LN : pick mss_of ls = None /\ pick ws_of ls = None /\ existsb sackok_of ls = false /\ pick ts_of ls = None) by (unfold ls; destruct (0 <? zlen bs); repeat split; reflexivity).
  destruct LN as (A1 & A2 & A3 & A4).
  unfold learn, lt. destruct ts as [[tick ecr]|].
  - cbn [app pick existsb flat_map]. change (sack_of (8, be32 (u32 tick) ++ be32 ecr)) with (@nil (Z * Z)). cbn [app]. rewrite A1, A2, A3, A4, SA. rewrite ts_learn by exact HT. reflexivity.
  - cbn [app]. rewrite A1, A2, A3, A4, SA. reflexivity.
Qed.

Lemma add_opt_spec o inc b max : zlen o + zlen b <= 200 -> 0 <= zlen b -> 0 <= max <= 40 ->
  add_opt o inc b max = (if inc && (4 * ((zlen o + zlen b + 3) / 4) <=? max) then o ++ b else o).
Proof. intros H Hb Hm. unfold add_opt, u8. pose proof (zlen_nonneg o). rewrite Z.mod_small by lia. reflexivity. Qed.

(** A SYN / SYN-ACK on an interface with IP MTU at least 68 (so that 24 or more option
    bytes fit) carries MSS, window scale, SACK-permitted and timestamps as requested. *)
Theorem syn_options_round_trip : forall frame payload ip_mtu mss ws shift sack ts tick ecr,
  let o := tcp_build_syn_options ip_mtu mss ws shift sack ts tick ecr in
  is_frame frame o payload -> Forall byte frame -> 68 <= ip_mtu -> 0 < mss < 65536 -> 0 <= shift <= 14 -> u32p ecr ->
  zlen o <= 40 /\ zlen o mod 4 = 0 /\
  exists po, tcp_parse_options frame (zlen frame) = Some po /\
    learnt_of po = Learnt (Some mss) (if ws then Some shift else None) sack (if ts then Some (u32 tick, ecr) else None) [].
Proof.
  intros frame payload ip_mtu mss ws shift sack ts tick ecr o HF HB HM Hmss Hsh He.
  set (wsb := if ws then [3; 3; shift] else []). set (sb := if sack then [4; 2] else []).
  set (tb := if ts then [8; 10] ++ be32 (u32 tick) ++ be32 ecr ++ [1; 1] else []).
  assert (MX : 28 <= syn_max_opt_len ip_mtu <= 40) by (unfold syn_max_opt_len; destruct (40 <? ip_mtu) eqn:Q1; [destruct (40 <? ip_mtu - 40) eqn:Q2|]; lia).
  set (mx := syn_max_opt_len ip_mtu) in *.
  assert (LT : zlen ([8; 10] ++ be32 (u32 tick) ++ be32 ecr ++ [1; 1]) = 12) by reflexivity.
  assert (EO : o = pad_nop 4 ([2; 4] ++ be16 mss ++ wsb ++ sb ++ tb) mx).
  { unfold o, tcp_build_syn_options. fold mx. destruct (4 <=? mx) eqn:Q0; [|lia]. f_equal. unfold u16 at 1. rewrite (Z.mod_small mss) by lia.
    rewrite (add_opt_spec ([2; 4] ++ be16 mss) ws [3; 3; shift]) by (try lia; change (zlen [3; 3; shift]) with 3; change (zlen ([2; 4] ++ be16 mss)) with 4; lia).
    change (zlen [3; 3; shift]) with 3. change (zlen ([2; 4] ++ be16 mss)) with 4. change (4 * ((4 + 3 + 3) / 4)) with 8. destruct (8 <=? mx) eqn:Q1; [|lia]. rewrite andb_true_r.
    replace (if ws then ([2; 4] ++ be16 mss) ++ [3; 3; shift] else [2; 4] ++ be16 mss) with (([2; 4] ++ be16 mss) ++ wsb) by (unfold wsb; destruct ws; [reflexivity|apply app_nil_r]).
    assert (L1 : 4 <= zlen (([2; 4] ++ be16 mss) ++ wsb) <= 7) by (unfold wsb; destruct ws; cbn; lia).
    rewrite (add_opt_spec _ sack [4; 2]) by (try lia; change (zlen [4; 2]) with 2; lia). change (zlen [4; 2]) with 2.
    destruct (4 * ((zlen (([2; 4] ++ be16 mss) ++ wsb) + 2 + 3) / 4) <=? mx) eqn:Q2; [|lia]. rewrite andb_true_r.
    replace (if sack then (([2; 4] ++ be16 mss) ++ wsb) ++ [4; 2] else ([2; 4] ++ be16 mss) ++ wsb) with ((([2; 4] ++ be16 mss) ++ wsb) ++ sb) by (unfold sb; destruct sack; [reflexivity|apply app_nil_r]).
    assert (L2 : 4 <= zlen ((([2; 4] ++ be16 mss) ++ wsb) ++ sb) <= 9) by (rewrite zlen_app; unfold sb; destruct sack; [change (zlen [4; 2]) with 2|change (zlen (@nil Z)) with 0]; lia).
    rewrite add_opt_spec by (try lia; rewrite LT; lia). rewrite LT.
    destruct (4 * ((zlen ((([2; 4] ++ be16 mss) ++ wsb) ++ sb) + 12 + 3) / 4) <=? mx) eqn:Q3; [|lia]. rewrite andb_true_r.
    unfold tb. destruct ts; rewrite <- ?app_assoc; cbn [app]; rewrite ?app_nil_r; reflexivity. }
  assert (LL : zlen ([2; 4] ++ be16 mss ++ wsb ++ sb ++ tb) <= 21).
  { rewrite !zlen_app. change (zlen [2; 4]) with 2. change (zlen (be16 mss)) with 2. unfold wsb, sb, tb.
    destruct ws; [change (zlen [3; 3; shift]) with 3|change (zlen (@nil Z)) with 0]; (destruct sack; [change (zlen [4; 2]) with 2|change (zlen (@nil Z)) with 0]);
    (destruct ts; [rewrite LT|change (zlen (@nil Z)) with 0]); lia. }
  destruct (pad_spec ([2; 4] ++ be16 mss ++ wsb ++ sb ++ tb) mx) as (k & _ & EP & EM & EL); [right; lia|].
  rewrite <- EO in EP, EM, EL. assert (L40 : zlen o <= 40) by lia. split; [exact L40|]. split; [exact EM|].
  set (lw := if ws then [(3, [shift])] else []). set (ls := if sack then [(4, @nil Z)] else []).
  set (lt := if ts then [(8, be32 (u32 tick) ++ be32 ecr)] else []).
  assert (HO : options o ((2, be16 mss) :: lw ++ ls ++ lt)).
  { rewrite EP. rewrite <- !app_assoc. cbn [app]. apply (O_opt 2 4 (be16 mss)); [lia|lia|reflexivity|].
    assert (H3 : options (tb ++ repeat 1 k) lt).
    { unfold tb, lt. destruct ts; [|apply options_pad]. rewrite <- !app_assoc. apply ts_bytes; [exact He|]. cbn [app]. do 2 constructor. apply options_pad. }
    assert (H2 : options (sb ++ tb ++ repeat 1 k) (ls ++ lt)).
    { unfold sb, ls. destruct sack; [|exact H3]. exact (O_opt 4 2 [] _ _ ltac:(lia) ltac:(lia) eq_refl H3). }
    unfold wsb, lw. destruct ws; [|exact H2]. exact (O_opt 3 3 [shift] _ _ ltac:(lia) ltac:(lia) eq_refl H2). }
  destruct (frame_parses frame o payload _ HF HB L40 EM HO) as (po & EPO & ELN). exists po. split; [exact EPO|]. rewrite ELN.
  assert (M1 : mss_of (2, be16 mss) = Some mss).
  { unfold mss_of. cbn [fst snd]. rewrite be16_val by lia. destruct (mss =? 0) eqn:Q; [lia|]. reflexivity. }
  assert (W1 : ws_of (3, [shift]) = Some shift).
  { unfold ws_of. cbn [fst snd]. change ((3 =? 3) && (zlen [shift] =? 1)) with true. cbv iota. change (zget [shift] 0) with shift. rewrite Z.min_r by lia. reflexivity. }
  pose proof (ts_learn tick ecr He) as T1.
  unfold learn, lw, ls, lt. destruct ws, sack, ts; cbn [app pick existsb flat_map]; rewrite ?M1, ?W1, ?T1; reflexivity.
Qed.

(** A data segment carries exactly the timestamps. *)
Theorem data_options_round_trip : forall frame payload ts,
  is_frame frame (data_options ts) payload -> Forall byte frame ->
  match ts with Some (_, ecr) => u32p ecr | None => True end ->
  exists po, tcp_parse_options frame (zlen frame) = Some po /\
    learnt_of po = Learnt None None false (match ts with Some (tick, ecr) => Some (u32 tick, ecr) | None => None end) [].
Proof.
  intros frame payload ts HF HB HT. destruct ts as [[tick ecr]|].
  - destruct (frame_parses frame (data_options (Some (tick, ecr))) payload [(8, be32 (u32 tick) ++ be32 ecr)] HF HB) as (po & EPO & ELN).
    { cbn; lia. } { reflexivity. } { unfold data_options. apply ts_bytes; [exact HT|]. do 2 constructor. }
    exists po. split; [exact EPO|]. rewrite ELN. unfold learn. cbn [pick existsb flat_map]. rewrite ts_learn by exact HT. reflexivity.
  - destruct (frame_parses frame (data_options None) payload [] HF HB) as (po & EPO & ELN); [cbn; lia|reflexivity|constructor|].
    exists po. split; [exact EPO|]. rewrite ELN. reflexivity.
Qed.

(** Non-vacuity: a SYN with every option, an ACK with SACK blocks across the sequence
    wrap, and a malformed option area. *)
Definition hdr (hl : Z) : list Z := repeat 0 46 ++ [hl] ++ repeat 0 7.
Example demo_syn : exists po, tcp_parse_options (hdr 160 ++ tcp_build_syn_options 1500 1460 true 3 true true 77 88) 78 = Some po /\
  po = Po (Some 1460) (Some 3) true (Some (77, 88)) [].
Proof. eexists. split; vm_compute; reflexivity. Qed.
Example demo_syn_frame : is_frame (hdr (hlen_byte 24) ++ tcp_build_syn_options 1500 1460 true 3 true true 77 88 ++ []) (tcp_build_syn_options 1500 1460 true 3 true true 77 88) [].
Proof. exists (hdr (hlen_byte 24)). repeat split. Qed.
Example demo_ack : tcp_parse_options (hdr 224 ++ tcp_build_ack_options (Some (5, 6)) true [(4294967290, 4); (10, 20); (30, 40); (50, 60)] 40) 90 =
  Some (Po None None false (Some (5, 6)) [(4294967290, 4); (10, 20); (30, 40)]).
Proof. vm_compute. reflexivity. Qed.
Example demo_bad : tcp_parse_options (hdr 128 ++ [1; 2; 4; 2; 0; 3; 9; 1; 0; 0; 0; 0]) 66 = Some (Po (Some 512) None false None []).
Proof. vm_compute. reflexivity. Qed.

Print Assumptions tcp_options_exact.
Print Assumptions tcp_options_unambiguous.
Print Assumptions tcp_options_all_found.
Print Assumptions ack_options_round_trip.
Print Assumptions syn_options_round_trip.
Print Assumptions data_options_round_trip.
