(** Proofs about the DHCP option iterator. *)
From Verif Require Import Base HttpUrl ListUtil DhcpOptSpec DhcpOpt.

(** ** Slices of the message *)
Lemma fld_len m a n : 0 <= a -> 0 <= n -> a + n <= zlen m -> zlen (fld m a n) = n.
Proof. intros. unfold fld, zlen in *. rewrite firstn_length, skipn_length. lia. Qed.
Lemma fld_nil m a n : n <= 0 -> fld m a n = [].
Proof. intros. unfold fld. replace (Z.to_nat n) with 0%nat by lia. reflexivity. Qed.
Lemma fld_split m p a b : 0 <= p -> 0 <= a -> 0 <= b -> p + a + b <= zlen m ->
  fld m p (a + b) = fld m p a ++ fld m (p + a) b.
Proof.
  intros. unfold fld. rewrite Z2Nat.inj_add by lia.
  rewrite (Z2Nat.inj_add p a) by lia.
  rewrite (Nat.add_comm (Z.to_nat p)).
  rewrite <- skipn_skipn.
  set (q := skipn (Z.to_nat p) m).
  rewrite <- (firstn_skipn (Z.to_nat a) q) at 1.
  assert (HL : length (firstn (Z.to_nat a) q) = Z.to_nat a).
  { rewrite firstn_length. subst q. rewrite skipn_length. unfold zlen in *. lia. }
  rewrite firstn_app, HL.
  replace (Z.to_nat a + Z.to_nat b - Z.to_nat a)%nat with (Z.to_nat b) by lia.
  rewrite firstn_all2 by lia. reflexivity.
Qed.
Lemma fld_mread m p n : 0 <= p -> 0 <= n -> p + n <= zlen m -> mread m p n = Some (fld m p n).
Proof.
  intros. unfold mread, fld.
  destruct ((0 <=? p) && (0 <=? n) && (p + n <=? zlen m)) eqn:E; [reflexivity|lia].
Qed.
Lemma fld_Forall m p n : Forall byte m -> Forall byte (fld m p n).
Proof.
  intros H. unfold fld. rewrite Forall_forall in *. intros x Hx. apply H.
  apply In_nth_error in Hx as [i Hi].
  destruct (Nat.lt_ge_cases i (Z.to_nat n)).
  - rewrite nth_error_firstn_lt in Hi by lia. rewrite nth_error_skipn in Hi. eapply nth_error_In; eauto.
  - rewrite nth_error_firstn_ge in Hi by lia. discriminate.
Qed.
Lemma fld_cons m p e : Forall byte m -> 0 <= p -> p < e -> e <= zlen m ->
  exists c, rd1 m p = Some c /\ byte c /\ fld m p (e - p) = c :: fld m (p + 1) (e - (p + 1)).
Proof.
  intros HB H0 H1 H2.
  assert (HL : zlen (fld m p 1) = 1) by (apply fld_len; lia).
  assert (HF : Forall byte (fld m p 1)) by (apply fld_Forall; auto).
  unfold rd1. rewrite fld_mread by lia. cbn [obind].
  replace (e - p) with (1 + (e - (p + 1))) by lia. rewrite fld_split by lia.
  destruct (fld m p 1) as [|c [|? ?]].
  - unfold zlen in HL. cbn in HL. lia.
  - exists c. inversion HF; subst. split; [reflexivity|]. split; [assumption|]. reflexivity.
  - exfalso. rewrite !zlen_cons in HL. pose proof (zlen_nonneg l). lia.
Qed.

(** ** States *)
Definition rem (m : list Z) (st : ostr) : list Z := fld m (o_ptr st) (o_end st - o_ptr st).
Definition chain (m : list Z) (reg ov : Z) : list Z :=
  if reg =? 0 then overload ov (f_sname m) (f_file m)
  else if reg =? 1 then (if (ov =? 1) || (ov =? 3) then f_file m else []) else [].
Definition pending (st : ostr) : list Z := match o_fill st with Some f => f | None => [] end.
Definition strm (m : list Z) (st : ostr) : list Z :=
  pending st ++ rem m st ++ chain m (o_reg st) (o_ov st).

Definition region_ok (st : ostr) : Prop :=
  (o_reg st = 0 /\ 240 <= o_ptr st <= o_end st /\ o_end st <= 552) \/
  (o_reg st = 1 /\ 44 <= o_ptr st <= o_end st /\ o_end st = 108) \/
  (o_reg st = 2 /\ 108 <= o_ptr st <= o_end st /\ o_end st = 236).
Definition Inv (m : list Z) (st : ostr) : Prop :=
  zlen m = 552 /\ Forall byte m /\ region_ok st /\ 0 <= o_ov st <= 3 /\
  match o_fill st with
  | None => True
  | Some f => full f = false /\ Forall byte f /\ (o_reg st = 0 -> o_part0 st = true) /\
      exists c r, f ++ rem m st = c :: r /\ c <> 0 /\ c <> 255
  end.
Definition mu (st : ostr) : Z :=
  2 * (o_end st - o_ptr st + (if o_reg st =? 0 then 200 else if o_reg st =? 1 then 130 else 0)) +
  (match o_fill st with None => 1 | Some _ => 0 end).

Lemma full_nf_lt f : full f = false -> Forall byte f -> zlen f < 257.
Proof.
  intros H HF. destruct f as [|c [|l f]]; [reflexivity|reflexivity|].
  unfold full in H. inversion HF as [|? ? ? HF']; subst. inversion HF' as [|? ? Hl ?]; subst.
  unfold byte in Hl. lia.
Qed.

Lemma fill_loop_ok m : zlen m = 552 -> Forall byte m -> forall fuel p e f,
  0 <= p <= e -> e <= 552 -> Z.of_nat fuel = e - p -> Forall byte f ->
  (full f = false \/ (full f = true /\ zlen f = 2 + nth 1 f 0)) ->
  exists p' f', fill_loop fuel m p e f = Some (p', f') /\ p <= p' <= e /\ Forall byte f' /\
    f' ++ fld m p' (e - p') = f ++ fld m p (e - p) /\
    ((full f' = true /\ zlen f' = 2 + nth 1 f' 0 /\ (full f = false -> p < p')) \/
     (full f' = false /\ p' = e)).
Proof.
  intros HM HB. induction fuel as [|fuel IH]; intros p e f Hp He Hf HF Hfull.
  - exists p, f. cbn [fill_loop]. split; [reflexivity|]. split; [lia|]. split; [assumption|].
    split; [reflexivity|]. destruct Hfull as [H|[H1 H2]].
    + right. split; [assumption|lia].
    + left. split; [assumption|]. split; [assumption|]. congruence.
  - cbn [fill_loop]. destruct Hfull as [H|[H1 H2]].
    + rewrite H. replace (p <? e) with true by lia. cbn [andb negb].
      destruct (fld_cons m p e HB ltac:(lia) ltac:(lia) ltac:(lia)) as (c & Hc & Hbc & HE).
      rewrite Hc. cbn [obind].
      pose proof (full_nf_lt f H HF) as HL. replace (zlen f <? 257) with true by lia.
      assert (HF' : Forall byte (f ++ [c])).
      { apply Forall_app. split; [assumption|]. constructor; [assumption|constructor]. }
      assert (HX : full (f ++ [c]) = false \/
                   (full (f ++ [c]) = true /\ zlen (f ++ [c]) = 2 + nth 1 (f ++ [c]) 0)).
      { destruct (full (f ++ [c])) eqn:E; [right|left; reflexivity]. split; [reflexivity|].
        destruct f as [|a [|l f]]; cbn [app] in *.
        - discriminate E.
        - unfold full in E. cbn [nth]. rewrite !zlen_cons, zlen_nil in *.
          unfold byte in Hbc. lia.
        - unfold full in E, H. cbn [nth app]. rewrite !zlen_cons, !zlen_app, zlen_cons, zlen_nil in *. lia. }
      destruct (IH (p + 1) e (f ++ [c]) ltac:(lia) ltac:(lia) ltac:(lia) HF' HX)
        as (p' & f' & E1 & E2 & E3 & E4 & E5).
      exists p', f'. split; [exact E1|]. split; [lia|]. split; [exact E3|]. split.
      * rewrite E4, HE, <- app_assoc. reflexivity.
      * destruct E5 as [(? & ? & ?)|(? & ?)]; [left|right]; repeat split; try assumption; try lia.
    + rewrite H1. rewrite andb_false_r. exists p, f. split; [reflexivity|]. split; [lia|].
      split; [assumption|]. split; [reflexivity|]. left. split; [assumption|]. split; [assumption|]. congruence.
Qed.

Definition moved (st st' : ostr) : Prop :=
  o_reg st' = o_reg st \/ (o_reg st = 0 /\ o_reg st' = 1 /\ 2 <= o_ov st <= 3) \/ (o_reg st' = 2 /\ o_ov st <> 0).
Definition reg_end (m : list Z) (st : ostr) (r : ostr * iter) : Prop :=
  (exists st', r = (st', Again) /\ region_ok st' /\ o_fill st' = o_fill st /\ o_ov st' = o_ov st /\
     o_strict st' = o_strict st /\ o_part0 st' = o_part0 st /\
     rem m st' ++ chain m (o_reg st') (o_ov st') = chain m (o_reg st) (o_ov st) /\
     mu st' + 2 * (o_end st - o_ptr st) < mu st /\ moved st st' /\
     exists x y, rem m st' = x :: y) \/
  (r = (st, Ret (fail st)) /\ next_region st = None /\ chain m (o_reg st) (o_ov st) = []).

Lemma next_region_ok m st : zlen m = 552 -> Forall byte m -> region_ok st -> 0 <= o_ov st <= 3 ->
  reg_end m st (region_end st).
Proof.
  intros HM HB HR HO. unfold region_end.
  assert (HS : zlen (f_sname m) = 64) by (apply fld_len; lia).
  assert (HFi : zlen (f_file m) = 128) by (apply fld_len; lia).
  assert (NS : exists x y, f_sname m = x :: y).
  { destruct (f_sname m); [discriminate HS|eauto]. }
  assert (NF : exists x y, f_file m = x :: y).
  { destruct (f_file m); [discriminate HFi|eauto]. }
  destruct st as [p e reg ov strict fill part0]. unfold region_ok in HR. cbn [o_reg o_ptr o_end o_ov] in *.
  assert (HOV : ov = 0 \/ ov = 1 \/ ov = 2 \/ ov = 3) by lia.
  unfold next_region, reg_end; cbn [o_reg o_ptr o_end o_ov].
  destruct HR as [(-> & HR) | [(-> & HR) | (-> & HR)]]; cbn [Z.eqb Pos.eqb];
  destruct HOV as [-> | [-> | [-> | ->]]]; cbn [Z.land Pos.land Pos.lxor Z.eqb negb Pos.eqb Pos.Ndouble N.double];
  first
  [ right; split; [reflexivity|split; reflexivity]
  | left; eexists; split; [reflexivity|];
    unfold set_pos, region_ok, moved, OFF_SNAME, SZ_SNAME, OFF_FILE, SZ_FILE, mu, rem, chain, overload;
    cbn [o_reg o_ptr o_end o_ov o_strict o_fill o_part0 Z.eqb Pos.eqb orb app];
    change (fld m 44 (44 + 64 - 44)) with (f_sname m);
    change (fld m 108 (108 + 128 - 108)) with (f_file m);
    repeat (split; [first [reflexivity | lia | rewrite ?app_nil_r; reflexivity | (right; left; lia) | (right; right; lia)
        | destruct fill; lia]|]); assumption ].
Qed.

(** ** One iteration *)
Ltac os := cbn [o_ptr o_end o_reg o_ov o_strict o_fill o_part0 set_fill set_ptr set_pos set_ov].
Definition cutoff (s : list Z) : Prop :=
  (exists c, s = [c] /\ c <> 0 /\ c <> 255) \/
  (exists c l d, s = c :: l :: d /\ c <> 0 /\ c <> 255 /\ zlen d < l).
Inductive stepr (m : list Z) (st : ostr) : ostr -> iter -> Prop :=
| SR_move st' : strm m st' = strm m st -> o_ov st' = o_ov st -> Inv m st' -> mu st' < mu st ->
    moved st st' -> stepr m st st' Again
| SR_pad st' : o_fill st = None -> strm m st = 0 :: strm m st' -> o_ov st' = o_ov st -> Inv m st' ->
    mu st' < mu st -> o_fill st' = None -> o_reg st' = o_reg st -> stepr m st st' Again
| SR_end st' r : o_fill st = None -> strm m st = 255 :: r -> stepr m st st' (Ret (ROpt 255 []))
| SR_opt st' c d : c <> 0 -> c <> 255 -> strm m st = c :: zlen d :: d ++ strm m st' ->
    o_ov st' = o_ov st -> Inv m st' -> o_fill st' = None -> mu st' < mu st -> Forall byte d ->
    byte c -> byte (zlen d) -> o_reg st' = o_reg st -> (c = 52 -> o_reg st <> 0) ->
    stepr m st st' (Ret (ROpt c d))
| SR_52 st' v r : 1 <= v <= 3 -> strm m st = 52 :: 1 :: v :: r ++ chain m (o_reg st') (o_ov st) ->
    strm m st' = r ++ chain m (o_reg st') v ->
    Inv m st' -> o_fill st' = None -> mu st' < mu st -> o_ov st' = v -> o_reg st' = o_reg st ->
    (o_fill st = None -> r = rem m st' /\ o_reg st' = 0 /\ rem m st = 52 :: 1 :: v :: r) ->
    stepr m st st' (Ret (ROpt 52 [v]))
| SR_bad52 st' i d r : strm m st = 52 :: zlen d :: d ++ r -> (d <> [1] /\ d <> [2] /\ d <> [3]) ->
    (i = Again /\ Inv m st' /\ mu st' < mu st /\ o_fill st' = None /\ o_ov st' = o_ov st /\
      moved st st' /\ (exists x, strm m st = x ++ strm m st') \/ i = Ret (fail st)) ->
    stepr m st st' i
| SR_out st' : o_fill st = None -> strm m st = [] -> stepr m st st' (Ret (fail st))
| SR_cut st' : cutoff (strm m st) -> stepr m st st' (Ret (fail st)).

Lemma full_split f : full f = true -> zlen f = 2 + nth 1 f 0 ->
  exists c d, f = c :: zlen d :: d /\ c = nth 0 f 0 /\ nth 1 f 0 = zlen d /\
    firstn (Z.to_nat (nth 1 f 0)) (skipn 2 f) = d.
Proof.
  intros H HL. destruct f as [|c [|l d]]; [discriminate..|]. cbn [nth] in *.
  rewrite !zlen_cons in HL. assert (l = zlen d) by lia. subst l.
  exists c, d. repeat split. cbn [skipn]. unfold zlen. rewrite Nat2Z.id. apply firstn_all.
Qed.
Lemma bad52_spec l v d : l = zlen d -> v = nth 0 d 0 ->
  (bad52 l v = true -> d <> [1] /\ d <> [2] /\ d <> [3]) /\
  (bad52 l v = false -> d = [v] /\ 1 <= v <= 3).
Proof.
  intros -> ->. unfold bad52. split.
  - intros H. repeat split; intros ->; cbn in H; discriminate.
  - intros H. destruct d as [|a [|b d]].
    + cbn in H. discriminate.
    + change (zlen [a]) with 1 in H. cbn [nth] in *. split; [reflexivity|lia].
    + rewrite !zlen_cons in H. pose proof (zlen_nonneg d). lia.
Qed.

Lemma ostep_ok m st : Inv m st ->
  exists st' i, ostep m st = Some (st', i) /\ stepr m st st' i /\ o_strict st' = o_strict st.
Proof.
  intros (HM & HB & HR & HO & HFI).
  destruct (o_fill st) as [f|] eqn:EF.
  - (* an option in progress *)
    destruct HFI as (Hnf & HBf & HP0 & c0 & r0 & Hc0 & Hc00 & Hc1).
    unfold ostep. rewrite EF.
    assert (Hpe : 0 <= o_ptr st <= o_end st /\ o_end st <= 552) by (unfold region_ok in HR; lia).
    destruct (fill_loop_ok m HM HB (Z.to_nat (o_end st - o_ptr st)) (o_ptr st) (o_end st) f
      ltac:(lia) ltac:(lia) ltac:(lia) HBf (or_introl Hnf)) as (p' & f' & E1 & E2 & E3 & E4 & E5).
    rewrite E1. cbn [obind].
    destruct E5 as [(F1 & F2 & F3)|(F1 & F2)].
    + specialize (F3 Hnf).
      destruct (full_split f' F1 F2) as (c & d & Ef & Hc & Hd & Hfd).
      rewrite F1. rewrite Hfd.
      set (st1 := set_fill (set_ptr st p') None).
      assert (HInv1 : Inv m st1).
      { unfold st1, Inv. os. repeat split; try assumption; try lia.
        unfold region_ok in *. os. lia. }
      assert (Hmu1 : mu st1 < mu st).
      { unfold mu, st1. os. rewrite EF.
        destruct (o_reg st =? 0); destruct (o_reg st =? 1); lia. }
      assert (HS : strm m st = c :: zlen d :: d ++ strm m st1).
      { unfold strm, pending. rewrite EF. unfold st1 at 1. cbn [set_fill o_fill app].
        rewrite app_assoc. unfold rem at 1. rewrite <- E4, Ef. cbn [app].
        rewrite <- app_assoc. reflexivity. }
      assert (Hc' : c = c0).
      { unfold rem in Hc0. rewrite <- E4, Ef in Hc0. cbn in Hc0. congruence. }
      subst c0.
      assert (HBd : Forall byte d /\ byte c /\ byte (zlen d)).
      { rewrite Ef in E3. inversion E3 as [|? ? ? E3']; subst. inversion E3'; subst. auto. }
      destruct HBd as (HBd & HBc & HBl).
      change (o_part0 st1) with (o_part0 st).
      destruct (o_part0 st && (nth 0 f' 0 =? 52)) eqn:E52.
      * assert (Hn2 : nth 2 f' 0 = nth 0 d 0) by (rewrite Ef; reflexivity).
        destruct (bad52_spec (nth 1 f' 0) (nth 2 f' 0) d Hd Hn2) as [B1 B2].
        destruct (bad52 (nth 1 f' 0) (nth 2 f' 0)).
        -- eexists _, _. split; [reflexivity|]. split; [|reflexivity].
           eapply SR_bad52 with (d := d).
           ++ rewrite HS. f_equal. lia.
           ++ apply B1; reflexivity.
           ++ right. reflexivity.
        -- destruct (B2 eq_refl) as [B3 B4].
           assert (Hc52 : nth 0 f' 0 = 52) by lia.
           rewrite Hc52. eexists _, _. split; [reflexivity|]. split; [|reflexivity].
           rewrite B3. cbn [app].
           set (v := nth 2 f' 0) in *.
           eapply (SR_52 m st (set_ov st1 v) v (rem m st1)).
           ++ exact B4.
           ++ rewrite HS. rewrite B3. cbn [app]. change (zlen [v]) with 1.
              replace c with 52 by lia. reflexivity.
           ++ unfold strm, pending, st1. cbn. reflexivity.
           ++ destruct HInv1 as (I1 & I2 & I3 & I4 & I5). unfold Inv. os. repeat split; try assumption; try lia.
           ++ reflexivity.
           ++ assumption.
           ++ reflexivity.
           ++ reflexivity.
           ++ congruence.
      * eexists _, _. split; [reflexivity|]. split; [|reflexivity].
        rewrite <- Hc. eapply SR_opt; try assumption; try reflexivity.
        intros -> HZ. rewrite (HP0 HZ), <- Hc in E52. discriminate.
    + rewrite F1. subst p'.
      rewrite fld_nil in E4 by lia. rewrite app_nil_r in E4.
      set (st1 := set_fill (set_ptr st (o_end st)) (Some f')).
      assert (HR1 : region_ok st1) by (unfold region_ok, st1 in *; cbn in *; lia).
      pose proof (next_region_ok m st1 HM HB HR1 HO) as HN.
      unfold region_end in HN.
      assert (HSt : strm m st = f' ++ chain m (o_reg st) (o_ov st)).
      { unfold strm, pending. rewrite EF, app_assoc. unfold rem. rewrite <- E4. reflexivity. }
      assert (Hmu1 : mu st1 <= mu st).
      { unfold mu, st1. os. rewrite EF. destruct (o_reg st =? 0); destruct (o_reg st =? 1); lia. }
      change (set_fill (set_ptr st (o_end st)) (Some f')) with st1.
      destruct HN as [(st' & N1 & N2 & N3 & N4 & N5 & N6 & N7 & N8 & NM & (x & y & N9))|(N1 & N2 & N3)].
      * destruct (next_region st1) as [st2|]; [|discriminate].
        assert (st2 = st') by congruence. subst st2. clear N1.
        eexists _, _. split; [reflexivity|]. split; [|rewrite N5; reflexivity].
        apply SR_move.
        -- rewrite HSt. unfold strm, pending. rewrite N3. cbn [o_fill st1 set_fill]. f_equal.
           rewrite N7. reflexivity.
        -- rewrite N4. reflexivity.
        -- unfold Inv. rewrite N3, N4. cbn [o_fill st1 set_fill o_ov set_ptr set_pos].
           repeat split; try assumption; try lia.
           { intros HZ. rewrite N6. apply HP0. unfold moved in NM. cbn [o_reg st1 set_fill set_ptr set_pos] in NM. lia. }
           rewrite E4. unfold rem in Hc0. rewrite Hc0. rewrite N9. cbn [app]. eauto.
        -- cbn [o_end o_ptr st1 set_fill set_ptr set_pos] in N8. lia.
        -- exact NM.
      * rewrite N2. eexists _, _. split; [reflexivity|]. split; [|reflexivity].
        change (fail st1) with (fail st).
        apply SR_cut. rewrite HSt. change (chain m (o_reg st) (o_ov st) = []) in N3. rewrite N3, app_nil_r.
        unfold rem in Hc0. rewrite <- E4 in Hc0. unfold cutoff.
        destruct f' as [|a [|l d]]; [discriminate| |].
        -- left. exists a. cbn in Hc0. injection Hc0 as -> _. auto.
        -- right. exists a, l, d. cbn in Hc0. injection Hc0 as -> _. unfold full in F1.
           rewrite !zlen_cons in F1. repeat split; auto; lia.
  - clear HFI. unfold ostep. rewrite EF.
    pose proof (next_region_ok m st HM HB HR HO) as HN.
    assert (Hpe : 0 <= o_ptr st <= o_end st /\ o_end st <= 552) by (unfold region_ok in HR; lia).
    assert (HSt : strm m st = rem m st ++ chain m (o_reg st) (o_ov st)).
    { unfold strm, pending. rewrite EF. reflexivity. }
    destruct (o_end st <? o_ptr st + 1) eqn:EE.
    + assert (Hr : rem m st = []) by (unfold rem; apply fld_nil; lia).
      destruct HN as [(st' & N1 & N2 & N3 & N4 & N5 & N6 & N7 & N8 & NM & N9)|(N1 & N2 & N3)].
      * rewrite N1. eexists _, _. split; [reflexivity|]. split; [|assumption].
        apply SR_move.
        -- rewrite HSt. unfold strm, pending. rewrite N3, EF, N7, Hr. reflexivity.
        -- assumption.
        -- unfold Inv. rewrite N3, N4, EF. repeat split; try assumption; lia.
        -- lia.
        -- assumption.
      * rewrite N1. eexists _, _. split; [reflexivity|]. split; [|reflexivity].
        apply SR_out; [assumption|]. rewrite HSt, Hr, N3. reflexivity.
    + destruct (fld_cons m (o_ptr st) (o_end st) HB ltac:(lia) ltac:(lia) ltac:(lia)) as (c & Hc & Hbc & HE).
      rewrite Hc. cbn [obind]. fold (rem m st) in HE.
      destruct (c =? 255) eqn:E255.
      { eexists _, _. split; [reflexivity|]. split; [|reflexivity].
        eapply SR_end; [assumption|]. rewrite HSt, HE. cbn [app]. f_equal. lia. }
      destruct (c =? 0) eqn:E0.
      { eexists _, _. split; [reflexivity|]. split; [|reflexivity].
        apply SR_pad; [assumption|..].
        - rewrite HSt, HE. cbn [app]. unfold strm, pending. cbn [set_ptr set_pos o_fill]. rewrite EF.
          unfold rem. cbn. f_equal. lia.
        - reflexivity.
        - unfold Inv. os. rewrite EF. repeat split; try assumption; try lia. unfold region_ok in *. os. lia.
        - unfold mu. os. rewrite EF. lia.
        - cbn. assumption.
        - reflexivity. }
      assert (HCUT : exists cut : bool, (if o_end st <? o_ptr st + 2 then Some true
               else do l <- rd1 m (o_ptr st + 1); Some (o_end st <? o_ptr st + 2 + l)) = Some cut /\
               (cut = false -> exists l, rd1 m (o_ptr st + 1) = Some l /\ o_ptr st + 2 + l <= o_end st /\ byte l /\
                  rem m st = c :: l :: fld m (o_ptr st + 2) (o_end st - (o_ptr st + 2)))).
      { destruct (o_end st <? o_ptr st + 2) eqn:E2.
        - exists true. split; [reflexivity|discriminate].
        - destruct (fld_cons m (o_ptr st + 1) (o_end st) HB ltac:(lia) ltac:(lia) ltac:(lia)) as (l & Hl & Hbl & HE2).
          rewrite Hl. cbn [obind]. eexists. split; [reflexivity|]. intros HH. exists l.
          split; [reflexivity|]. split; [lia|]. split; [assumption|].
          rewrite HE, HE2. replace (o_ptr st + 1 + 1) with (o_ptr st + 2) by lia. reflexivity. }
      destruct HCUT as (cut & -> & HCUT). cbn [obind].
      destruct cut.
      { eexists _, _. split; [reflexivity|]. split; [|reflexivity].
        apply SR_move.
        - unfold strm, pending. os. rewrite EF. reflexivity.
        - reflexivity.
        - unfold Inv. os. repeat split; try assumption; try lia. constructor.
          exists c. change (rem m _) with (rem m st). rewrite HE. eexists. split; [reflexivity|]. lia.
        - unfold mu. os. rewrite EF. lia.
        - left. reflexivity. }
      destruct (HCUT eq_refl) as (l & Hl & Hle & Hbl & HE2). clear HCUT. rewrite Hl. cbn [obind].
      unfold byte in Hbl.
      rewrite fld_mread by lia. cbn [obind].
      set (d := fld m (o_ptr st + 2) l).
      assert (Hdl : zlen d = l) by (apply fld_len; lia).
      assert (HBd : Forall byte d) by (apply fld_Forall; assumption).
      assert (HE3 : rem m st = c :: zlen d :: d ++ fld m (o_ptr st + 2 + l) (o_end st - (o_ptr st + 2 + l))).
      { rewrite HE2. rewrite Hdl. f_equal. f_equal.
        replace (o_end st - (o_ptr st + 2)) with (l + (o_end st - (o_ptr st + 2 + l))) by lia.
        rewrite fld_split by lia. reflexivity. }
      assert (HInvN : forall ov, 0 <= ov <= 3 -> Inv m (set_ptr (set_ov st ov) (o_ptr st + 2 + l))).
      { intros ov Hov. unfold Inv. os. rewrite EF. repeat split; try assumption; try lia.
        unfold region_ok in *. os. lia. }
      destruct ((o_reg st =? 0) && (c =? 52)) eqn:E52.
      * assert (HBAD : (d <> [1] /\ d <> [2] /\ d <> [3]) -> exists st' i,
          Some (region_end st) = Some (st', i) /\ stepr m st st' i /\ o_strict st' = o_strict st).
        { intros Hbad.
          destruct HN as [(st' & N1 & N2 & N3 & N4 & N5 & N6 & N7 & N8 & NM & N9)|(N1 & N2 & N3)].
          - rewrite N1. eexists _, _. split; [reflexivity|]. split; [|assumption].
            eapply SR_bad52 with (d := d); [|exact Hbad|].
            + rewrite HSt, HE3. cbn [app]. rewrite <- app_assoc. f_equal; lia.
            + left. split; [reflexivity|]. split.
              * unfold Inv. rewrite N3, N4, EF. repeat split; try assumption; lia.
              * split; [lia|]. split; [congruence|]. split; [assumption|]. split; [assumption|].
                exists (rem m st). rewrite HSt. f_equal. rewrite <- N7. unfold strm, pending.
                rewrite N3, EF. reflexivity.
          - rewrite N1. eexists _, _. split; [reflexivity|]. split; [|reflexivity].
            eapply SR_bad52 with (d := d); [|exact Hbad|].
            + rewrite HSt, HE3. cbn [app]. rewrite <- app_assoc. f_equal; lia.
            + right. reflexivity. }
        destruct (l =? 1) eqn:El1; cbn [negb].
        2:{ apply HBAD. repeat split; intros Hx; rewrite Hx in Hdl; cbn in Hdl; lia. }
        assert (Hl1 : l = 1) by lia.
        destruct (fld_cons m (o_ptr st + 2) (o_ptr st + 3) HB ltac:(lia) ltac:(lia) ltac:(lia)) as (v & Hv & Hbv & HE4).
        rewrite Hv. cbn [obind].
        assert (Hd1 : d = [v]).
        { unfold d. rewrite Hl1. replace (o_ptr st + 3 - (o_ptr st + 2)) with 1 in HE4 by lia.
          rewrite HE4. f_equal. apply fld_nil. lia. }
        destruct ((v <? 1) || (3 <? v)) eqn:Ev.
        { apply HBAD. rewrite Hd1. repeat split; intros Hx; injection Hx as Hx; lia. }
        eexists _, _. split; [reflexivity|]. split; [|reflexivity].
        assert (c = 52) by lia. subst c. rewrite Hd1.
        eapply (SR_52 m st _ v (rem m (set_ptr (set_ov st v) (o_ptr st + 2 + l)))).
        -- lia.
        -- rewrite HSt, HE3, Hd1. cbn [app]. change (zlen [v]) with 1. reflexivity.
        -- unfold strm, pending. os. rewrite EF. reflexivity.
        -- apply HInvN. lia.
        -- cbn. assumption.
        -- unfold mu. os. rewrite EF. lia.
        -- reflexivity.
        -- reflexivity.
        -- intros _. split; [reflexivity|]. split; [cbn; lia|]. rewrite HE3, Hd1. reflexivity.
      * eexists _, _. split; [reflexivity|]. split; [|reflexivity].
        eapply SR_opt; [lia|lia| | | | | | | | | |].
        -- rewrite HSt, HE3. cbn [app]. rewrite <- app_assoc. f_equal. f_equal. f_equal.
           unfold strm, pending. cbn [o_fill set_ptr set_pos]. rewrite EF. reflexivity.
        -- reflexivity.
        -- specialize (HInvN (o_ov st) HO). exact HInvN.
        -- cbn. assumption.
        -- unfold mu. os. rewrite EF. lia.
        -- assumption.
        -- assumption.
        -- unfold byte. lia.
        -- reflexivity.
        -- lia.
Qed.

(** ** One call *)
Lemma mu_nonneg m st : Inv m st -> 0 <= mu st.
Proof.
  intros (_ & _ & HR & _). unfold mu. unfold region_ok in HR.
  destruct (o_fill st); destruct (o_reg st =? 0); destruct (o_reg st =? 1); lia.
Qed.
Definition Whole (m optf : list Z) (st : ostr) (w : list Z) : Prop :=
  (exists v, 0 <= v <= 3 /\ w = optf ++ overload v (f_sname m) (f_file m)) /\
  (exists a, w = a ++ strm m st) /\
  (o_reg st = 0 -> w = optf ++ overload (o_ov st) (f_sname m) (f_file m)) /\
  (o_reg st = 1 -> w = (optf ++ f_sname m) ++ chain m 1 (o_ov st)).
Lemma Whole_keep m optf st st' w : Whole m optf st w -> moved st st' -> o_ov st' = o_ov st ->
  (exists x, strm m st = x ++ strm m st') -> Whole m optf st' w.
Proof.
  intros (Hv & (a & Ha) & H0 & H1) HM HO (x & Hx). split; [exact Hv|]. split.
  { exists (a ++ x). rewrite Ha, Hx, app_assoc. reflexivity. }
  unfold moved in HM. rewrite HO. destruct HM as [E | [(E1 & E2 & E3) | (E & _)]].
  - rewrite E. auto.
  - split; [lia|]. intros _. rewrite (H0 E1). unfold overload, chain. cbn [Z.eqb Pos.eqb].
    rewrite <- app_assoc. f_equal.
    assert (HH : o_ov st = 2 \/ o_ov st = 3) by lia. destruct HH as [-> | ->]; reflexivity.
  - split; lia.
Qed.
Lemma Whole_step m optf st st' i w : Inv m st -> stepr m st st' i -> Whole m optf st w ->
  match i with
  | Again => exists w', Whole m optf st' w'
  | Ret (ROpt c d) => c <> 255 -> infix (c :: zlen d :: d) w /\ exists w', Whole m optf st' w'
  | _ => True
  end.
Proof.
  intros HI HS HW.
  destruct HS as [st' E1 E2 E3 E4 E5|st' E1 E2 E3 E4 E5 E6 E7|st' r E1 E2|st' c d E1 E2 E3 E4 E5 E6 E7 E8 E9 E10 E11 E12
    |st' v r E1 E2 E3 E4 E5 E6 E7 E7b E8|st' i d r E1 E2 E3|st' E1 E2|st' E1].
  - exists w. eapply Whole_keep; eauto. exists []. rewrite E1. reflexivity.
  - exists w. eapply Whole_keep; [eauto|left; auto|auto|]. exists [0]. exact E2.
  - congruence.
  - intros _. split.
    + destruct HW as (_ & (a & Ha) & _). exists a, (strm m st'). rewrite Ha, E3. reflexivity.
    + exists w. eapply Whole_keep; [eauto|left; auto|auto|]. exists (c :: zlen d :: d). exact E3.
  - intros _. pose proof HW as HW'. destruct HW as ((v0 & Hv0 & Hw0) & (a & Ha) & H0 & H1). split.
    + exists a, (r ++ chain m (o_reg st') (o_ov st)). rewrite Ha, E2. reflexivity.
    + rewrite E7b in *.
      destruct HI as (_ & _ & HR & HO & _).
      assert (HC : o_reg st = 0 \/ o_reg st = 1 \/ o_reg st = 2) by (unfold region_ok in HR; lia).
      destruct HC as [HC | [HC | HC]].
      * exists (optf ++ overload v (f_sname m) (f_file m)). split; [exists v; split; [lia|reflexivity]|].
        rewrite E7, E7b, HC in *. split; [|split; [reflexivity|lia]].
        exists (a ++ [52; 1; v]). rewrite E3. unfold chain in *. cbn [Z.eqb] in *.
        rewrite (H0 eq_refl) in Ha. rewrite E2 in Ha.
        change (52 :: 1 :: v :: r ++ overload (o_ov st) (f_sname m) (f_file m))
          with ((52 :: 1 :: v :: r) ++ overload (o_ov st) (f_sname m) (f_file m)) in Ha.
        rewrite app_assoc in Ha. apply app_inv_tail in Ha. subst optf. rewrite <- !app_assoc. reflexivity.
      * exists ((optf ++ f_sname m) ++ chain m 1 v). split.
        { assert (HV : v = 1 \/ v = 2 \/ v = 3) by lia.
          destruct HV as [-> | [-> | ->]].
          - exists 3. split; [lia|]. unfold chain, overload. cbn. rewrite <- app_assoc. reflexivity.
          - exists 2. split; [lia|]. unfold chain, overload. cbn. rewrite <- app_assoc. reflexivity.
          - exists 3. split; [lia|]. unfold chain, overload. cbn. rewrite <- app_assoc. reflexivity. }
        rewrite E7, E7b, HC in *. split; [|split; [lia|reflexivity]].
        exists (a ++ [52; 1; v]). rewrite E3.
        rewrite (H1 eq_refl) in Ha. rewrite E2 in Ha.
        change (52 :: 1 :: v :: r ++ chain m 1 (o_ov st))
          with ((52 :: 1 :: v :: r) ++ chain m 1 (o_ov st)) in Ha.
        rewrite (app_assoc a) in Ha. apply app_inv_tail in Ha. rewrite Ha. rewrite <- !app_assoc. reflexivity.
      * exists w. split; [exists v0; auto|]. rewrite E7b, HC in *. split; [|split; lia].
        exists (a ++ [52; 1; v]). rewrite E3. rewrite Ha, E2. unfold chain. cbn [Z.eqb Pos.eqb].
        rewrite !app_nil_r, <- app_assoc. reflexivity.
  - destruct E3 as [(-> & F1 & F2 & F3 & F4 & F5 & F6) | ->].
    + exists w. eapply Whole_keep; eauto.
    + unfold fail. destruct (o_strict st); exact I.
  - unfold fail. destruct (o_strict st); exact I.
  - unfold fail. destruct (o_strict st); exact I.
Qed.

Lemma onext_ok m optf : forall fuel st w, Inv m st -> mu st < Z.of_nat fuel -> Whole m optf st w ->
  exists st' r, onext fuel m st = Some (st', r) /\ o_strict st' = o_strict st /\
    match r with
    | ROpt c d => c = 255 \/
        (c <> 0 /\ byte c /\ zlen d <= 255 /\ Forall byte d /\ Inv m st' /\ o_fill st' = None /\
         mu st' < mu st /\ (exists w', Whole m optf st' w' ) /\
         (exists v, 0 <= v <= 3 /\ infix (c :: zlen d :: d) (optf ++ overload v (f_sname m) (f_file m))) /\
         (o_ov st = 0 -> o_reg st = 0 -> infix (c :: zlen d :: d) optf /\
            (o_reg st' = 0 /\ (o_ov st' = 0 \/ c = 52 /\ d = [o_ov st'] /\ 1 <= o_ov st' <= 3))))
    | _ => True
    end.
Proof.
  induction fuel as [|fuel IH]; intros st w HI HM HW.
  - pose proof (mu_nonneg m st HI). lia.
  - cbn [onext]. destruct (ostep_ok m st HI) as (st' & i & E & HS & Hst). rewrite E. cbn [obind].
    pose proof (Whole_step m optf st st' i w HI HS HW) as HWS.
    destruct i as [|r].
    + assert (HI' : Inv m st' /\ mu st' < mu st /\ o_ov st' = o_ov st /\ moved st st').
      { inversion HS; subst; auto.
        - split; [auto|]. split; [auto|]. split; [auto|]. left. assumption.
        - match goal with H : _ \/ _ |- _ => destruct H as [(_ & ? & ? & ? & ? & ? & ?) | HH]; [auto|discriminate HH] end. }
      destruct HI' as (HI' & HM' & Hov & Hmv). destruct HWS as (w' & HW').
      destruct (IH st' w' HI' ltac:(lia) HW') as (st2 & r & E2 & Hs2 & H2).
      exists st2, r. split; [exact E2|]. split; [congruence|].
      destruct r as [c d| |]; try exact I. destruct H2 as [H2 | (A1 & A2 & A3 & A4 & A5 & A6 & A7 & A8 & A9 & A10)]; [left; exact H2|right].
      split; [assumption|]. split; [assumption|]. split; [assumption|]. split; [assumption|]. split; [assumption|].
      split; [assumption|]. split; [lia|]. split; [assumption|]. split; [assumption|].
      intros Z1 Z2. apply A10; [congruence|unfold moved in Hmv; lia].
    + exists st', r. split; [reflexivity|]. split; [exact Hst|].
      destruct r as [c d| |]; try exact I.
      destruct (Z.eq_dec c 255) as [->|Hc]; [left; reflexivity|right].
      destruct (HWS Hc) as (Hinf & HW').
      destruct HW as ((v0 & Hv0 & Hw0) & (a & Ha) & H0 & H1).
      assert (HX : exists v, 0 <= v <= 3 /\ infix (c :: zlen d :: d) (optf ++ overload v (f_sname m) (f_file m))).
      { exists v0. split; [assumption|]. rewrite <- Hw0. assumption. }
      assert (HY : o_ov st = 0 -> o_reg st = 0 -> infix (c :: zlen d :: d) optf).
      { intros Z1 Z2. rewrite (H0 Z2), Z1 in Hinf. cbn in Hinf. rewrite app_nil_r in Hinf. exact Hinf. }
      inversion HS as [| | |st1 c1 d1 E1 E2 E3 E4 E5 E6 E7 E8 E9 E10 E11 E12|st1 v r E1 E2 E3 E4 E5 E6 E7 E7b E8|st1 i d1 r E1 E2 E3|
         st1 E1 E2 E3|st1 E1 E2].
      * congruence.
      * subst st1 c1 d1. unfold byte in E10.
        split; [assumption|]. split; [assumption|]. split; [lia|]. split; [assumption|]. split; [assumption|].
        split; [assumption|]. split; [assumption|]. split; [assumption|]. split; [assumption|].
        intros Z1 Z2. split; [auto|]. split; [congruence|]. left. congruence.
      * subst st1 c d.
        split; [lia|]. split; [unfold byte; lia|]. split; [unfold zlen; cbn; lia|].
        split; [constructor; [unfold byte; lia|constructor]|]. split; [assumption|].
        split; [assumption|]. split; [assumption|]. split; [assumption|]. split; [assumption|].
        intros Z1 Z2. split; [auto|]. split; [congruence|]. right. rewrite E7. auto.
      * exfalso. destruct E3 as [(X & _)|X]; [discriminate|]. unfold fail in X. destruct (o_strict st); discriminate.
      * exfalso. match goal with H : fail st = _ |- _ => unfold fail in H; destruct (o_strict st); discriminate H end.
      * exfalso. match goal with H : fail st = _ |- _ => unfold fail in H; destruct (o_strict st); discriminate H end.
Qed.

Definition opt_in (w : list Z) (o : opt) : Prop := infix (enc1 o) w.
Lemma oloop_ok m optf : forall fuel st w, Inv m st -> mu st < Z.of_nat fuel -> mu st < 5000 -> Whole m optf st w ->
  exists os e, oloop fuel m st = Some (os, e) /\ (o_strict st = true -> e <> Some false) /\
    (o_strict st = false -> e <> None) /\ Forall opt_ok os /\
    Forall (fun o => exists v, 0 <= v <= 3 /\ opt_in (optf ++ overload v (f_sname m) (f_file m)) o) os /\
    (o_ov st = 0 -> o_reg st = 0 -> (forall v, 1 <= v <= 3 -> ~ In (52, [v]) os) -> Forall (opt_in optf) os).
Proof.
  induction fuel as [|fuel IH]; intros st w HI HM HM2 HW.
  - pose proof (mu_nonneg m st HI). lia.
  - cbn [oloop].
    destruct (onext_ok m optf FUEL st w HI ltac:(unfold FUEL; lia) HW) as (st' & r & E & Hst & H).
    rewrite E. cbn [obind].
    assert (HNIL : (r = RErr \/ r = RZero) -> r = fail st) .
    { intros Hr. clear - E Hr HI. revert st HI E Hr. generalize FUEL. intros n. induction n as [|n IHn]; intros st HI E Hr; [discriminate|].
      cbn [onext] in E. destruct (ostep_ok m st HI) as (s1 & i & E1 & HS & Hs). rewrite E1 in E. cbn [obind] in E.
      destruct i as [|r1].
      - assert (HI' : Inv m s1) by (inversion HS; subst; auto; 
          match goal with H : _ \/ _ |- _ => destruct H as [(_ & ? & ? & ? & ? & ? & ?) | HH]; [auto|discriminate HH] end).
        rewrite (IHn s1 HI' E Hr). unfold fail. rewrite Hs. reflexivity.
      - injection E as -> ->. inversion HS; subst; try reflexivity; try (destruct Hr; discriminate).
        match goal with H : _ \/ Ret _ = _ |- _ => destruct H as [(HH & _)|HH]; [discriminate HH|congruence] end. }
    destruct r as [c d| |].
    + destruct (c =? 255) eqn:E255.
      { exists [], (Some true). split; [reflexivity|]. split; [intros ? HX; discriminate HX|]. split; [intros ? HX; discriminate HX|].
        split; [constructor|]. split; [constructor|]. constructor. }
      destruct H as [H | (A1 & A2 & A3 & A4 & A5 & A6 & A7 & (w' & A8) & A9 & A10)]; [lia|].
      destruct (IH st' w' A5 ltac:(lia) ltac:(lia) A8) as (os & e & F1 & F2 & F3 & F4 & F5 & F6).
      rewrite F1. cbn [obind]. exists ((c, d) :: os), e. split; [reflexivity|].
      split; [rewrite <- Hst; exact F2|]. split; [rewrite <- Hst; exact F3|].
      split. { constructor; [|assumption]. unfold opt_ok. cbn [fst snd]. unfold byte in A2. repeat split; try assumption; lia. }
      split. { constructor; [|assumption]. exact A9. }
      intros Z1 Z2 Z3. destruct (A10 Z1 Z2) as (B1 & B2 & B3).
      constructor; [exact B1|]. apply F6.
      * destruct B3 as [B3 | (B3 & B4 & B5)]; [exact B3|].
        exfalso. apply (Z3 (o_ov st') B5). left. rewrite B3, B4. reflexivity.
      * exact B2.
      * intros v Hv Hin. apply (Z3 v Hv). right. exact Hin.
    + specialize (HNIL (or_intror eq_refl)). unfold fail in HNIL.
      exists [], (Some false). split; [reflexivity|]. destruct (o_strict st); [discriminate|].
      split; [intros HZ HX; first [discriminate HX|discriminate HZ]|]. split; [intros HZ HX; first [discriminate HX|discriminate HZ]|]. split; [constructor|]. split; constructor.
    + specialize (HNIL (or_introl eq_refl)). unfold fail in HNIL.
      exists [], None. split; [reflexivity|]. destruct (o_strict st); [|discriminate].
      split; [intros HZ HX; first [discriminate HX|discriminate HZ]|]. split; [intros HZ HX; first [discriminate HX|discriminate HZ]|]. split; [constructor|]. split; constructor.
Qed.

Lemma Inv_init m len strict : zlen m = 552 -> Forall byte m -> 240 <= len < 4294967296 -> Inv m (oinit len strict).
Proof.
  intros H1 H2 H3. unfold Inv, oinit, region_ok, DHCP_HEADER_LEN, SZ_OPTIONS, OFF_OPTIONS.
  cbn [o_reg o_ptr o_end o_ov o_fill o_strict]. unfold u32.
  rewrite Z.mod_small by lia. repeat split; try assumption; try lia.
  left. destruct (312 <? len - 240) eqn:E; lia.
Qed.
Lemma strm_init m len strict : 240 <= len < 4294967296 -> strm m (oinit len strict) = f_options m len.
Proof.
  intros H. unfold strm, pending, rem, oinit, chain, overload, f_options, DHCP_HEADER_LEN, SZ_OPTIONS, OFF_OPTIONS.
  cbn [o_reg o_ptr o_end o_ov o_fill o_strict Z.eqb orb app]. unfold u32.
  rewrite Z.mod_small by lia. rewrite app_nil_r. f_equal.
  destruct (312 <? len - 240) eqn:E; lia.
Qed.
Lemma mu_init len strict : 240 <= len < 4294967296 -> mu (oinit len strict) < 5000.
Proof.
  intros H. unfold mu, oinit, DHCP_HEADER_LEN, SZ_OPTIONS, OFF_OPTIONS.
  cbn [o_reg o_ptr o_end o_ov o_fill o_strict Z.eqb]. unfold u32.
  rewrite Z.mod_small by lia. destruct (312 <? len - 240) eqn:E; lia.
Qed.
Lemma Whole_init m len strict : 240 <= len < 4294967296 ->
  Whole m (f_options m len) (oinit len strict) (f_options m len).
Proof.
  intros H. unfold Whole. rewrite strm_init by assumption. cbn.
  split; [exists 0; split; [lia|cbn; rewrite app_nil_r; reflexivity]|].
  split; [exists []; reflexivity|]. split; [intros _; rewrite app_nil_r; reflexivity|lia].
Qed.

(** ** Agreement with the specification *)
Ltac spl := repeat (match goal with |- _ /\ _ => split; [first [assumption | lia | solve [auto]]|] end);
  first [assumption | lia | solve [auto]].
Lemma app_len_inv {A} (a : list A) : forall b x y, length a = length b -> a ++ x = b ++ y -> a = b /\ x = y.
Proof.
  induction a as [|h a IH]; intros [|k b] x y HL HE; try discriminate; [auto|].
  cbn in HE. injection HE as -> HE. destruct (IH b x y ltac:(cbn in HL; lia) HE) as [-> ->]. auto.
Qed.
Lemma tlv_opt_inv c d s os e : c <> 0 -> c <> 255 -> tlv (c :: zlen d :: d ++ s) os e ->
  exists os', os = (c, d) :: os' /\ tlv s os' e.
Proof.
  intros H0 H1 H. inversion H; subst; try congruence.
  - match goal with HH : _ = _ :> list Z |- _ => rename HH into HE end.
    match goal with HL : zlen ?x = zlen d |- _ => rename HL into HLn; rename x into d0 end.
    destruct (app_len_inv d0 d _ _ ltac:(unfold zlen in HLn; lia) HE) as (-> & ->). eauto.
  - exfalso. match goal with HL : zlen (d ++ s) < zlen d |- _ => rewrite zlen_app in HL; pose proof (zlen_nonneg s); lia end.
Qed.

Definition answer (strict : bool) (e : fin) : option bool :=
  match e with FEnd => Some true | _ => if strict then None else Some false end.
Definition last_res (strict : bool) (e : fin) : ores :=
  match e with FEnd => ROpt 255 [] | _ => if strict then RErr else RZero end.

Lemma onext_tlv m : forall fuel st os e, Inv m st -> mu st < Z.of_nat fuel -> tlv (strm m st) os e ->
  (forall d, ~ In (52, d) os) ->
  exists st' r, onext fuel m st = Some (st', r) /\ o_strict st' = o_strict st /\
    match os with
    | [] => r = last_res (o_strict st) e
    | (c, d) :: os' => c <> 255 /\ r = ROpt c d /\ Inv m st' /\ o_fill st' = None /\ mu st' < mu st /\ tlv (strm m st') os' e
    end.
Proof.
  induction fuel as [|fuel IH]; intros st os e HI HM HT H52.
  - pose proof (mu_nonneg m st HI). lia.
  - cbn [onext]. destruct (ostep_ok m st HI) as (st' & i & E & HS & Hst). rewrite E. cbn [obind].
    destruct HS as [st' E1 E2 E3 E4 E5|st' E1 E2 E3 E4 E5 E6 E7|st' r E1 E2|st' c d E1 E2 E3 E4 E5 E6 E7 E8 E9 E10 E11 E12
      |st' v r E1 E2 E3 E4 E5 E6 E7 E7b E8|st' i d r E1 E2 E3|st' E1 E2|st' E1].
    + rewrite <- E1 in HT. destruct (IH st' os e E3 ltac:(lia) HT H52) as (s2 & r & F1 & F2 & F3).
      exists s2, r. split; [exact F1|]. split; [congruence|]. rewrite Hst in F3.
      destruct os as [|[c d] os]; [exact F3|]. destruct F3 as (? & ? & ? & ? & ? & ?). spl.
    + rewrite E2 in HT. inversion HT as [|? ? ? HT'| | | |]; subst; try congruence.
      destruct (IH st' os e E4 ltac:(lia) HT' H52) as (s2 & r & F1 & F2 & F3).
      exists s2, r. split; [exact F1|]. split; [congruence|]. rewrite Hst in F3.
      destruct os as [|[c d] os]; [exact F3|]. destruct F3 as (? & ? & ? & ? & ? & ?). spl.
    + rewrite E2 in HT. inversion HT; subst; try congruence.
      exists st', (ROpt 255 []). split; [reflexivity|]. split; [assumption|]. reflexivity.
    + rewrite E3 in HT. apply tlv_opt_inv in HT as (os' & -> & HT'); try assumption.
      exists st', (ROpt c d). split; [reflexivity|]. split; [assumption|]. auto 10.
    + exfalso. rewrite E2 in HT.
      change (52 :: 1 :: v :: r ++ chain m (o_reg st') (o_ov st)) with (52 :: zlen [v] :: [v] ++ (r ++ chain m (o_reg st') (o_ov st))) in HT.
      apply tlv_opt_inv in HT as (os' & -> & HT'); try lia. apply (H52 [v]). left. reflexivity.
    + exfalso. rewrite E1 in HT. apply tlv_opt_inv in HT as (os' & -> & HT'); try lia.
      apply (H52 d). left. reflexivity.
    + rewrite E2 in HT. inversion HT; subst.
      exists st', (fail st). split; [reflexivity|]. split; [assumption|]. reflexivity.
    + assert (HE : os = [] /\ e = FCut).
      { destruct E1 as [(c & Hs & X1 & X2)|(c & l & d & Hs & X1 & X2 & X3)]; rewrite Hs in HT; inversion HT; subst; try congruence; auto.
        exfalso. match goal with HL : zlen (?a ++ ?b) < zlen ?a |- _ => rewrite zlen_app in HL; pose proof (zlen_nonneg b); lia end. }
      destruct HE as [-> ->].
      exists st', (fail st). split; [reflexivity|]. split; [assumption|]. reflexivity.
Qed.

Lemma oloop_tlv m : forall fuel st os e, Inv m st -> mu st < Z.of_nat fuel -> mu st < 5000 -> tlv (strm m st) os e ->
  (forall d, ~ In (52, d) os) -> oloop fuel m st = Some (os, answer (o_strict st) e).
Proof.
  induction fuel as [|fuel IH]; intros st os e HI HM HM2 HT H52.
  - pose proof (mu_nonneg m st HI). lia.
  - cbn [oloop].
    destruct (onext_tlv m FUEL st os e HI ltac:(unfold FUEL; lia) HT H52) as (st' & r & E & Hst & H).
    rewrite E. cbn [obind]. destruct os as [|[c d] os].
    + subst r. unfold last_res, answer. destruct e; [reflexivity| |]; destruct (o_strict st); reflexivity.
    + destruct H as (A1 & -> & A2 & A3 & A4 & A5). replace (c =? 255) with false by lia.
      rewrite (IH st' os e A2 ltac:(lia) ltac:(lia) A5); [|intros d0 Hd; apply (H52 d0); right; exact Hd].
      cbn [obind]. rewrite Hst. reflexivity.
Qed.

(** Before any overload option *)
Lemma onext_plain m : forall fuel st n c d t, Inv m st -> mu st < Z.of_nat fuel ->
  o_ov st = 0 -> o_reg st = 0 -> c <> 0 -> c <> 255 -> byte (zlen d) ->
  (n = 0%nat \/ o_fill st = None) ->
  strm m st = repeat 0 n ++ c :: zlen d :: d ++ t ->
  (c = 52 -> exists v, d = [v] /\ 1 <= v <= 3) ->
  exists st', onext fuel m st = Some (st', ROpt c d) /\ o_strict st' = o_strict st /\ Inv m st' /\
    o_fill st' = None /\ mu st' < mu st /\
    (c <> 52 -> o_ov st' = 0 /\ o_reg st' = 0 /\ strm m st' = t) /\
    (c = 52 -> strm m st' = t ++ overload (nth 0 d 0) (f_sname m) (f_file m)).
Proof.
  induction fuel as [|fuel IH]; intros st n c d t HI HM Hov Hreg Hc0 Hc1 Hl Hn HT H52.
  - pose proof (mu_nonneg m st HI). lia.
  - cbn [onext]. destruct (ostep_ok m st HI) as (st' & i & E & HS & Hst). rewrite E. cbn [obind].
    assert (HD : forall d' t', c :: zlen d :: d ++ t = c :: zlen d' :: d' ++ t' -> d = d' /\ t = t').
    { intros d' t' HX. injection HX as X1 X2.
      apply app_len_inv; [unfold zlen in X1; lia|exact X2]. }
    destruct HS as [st' E1 E2 E3 E4 E5|st' E1 E2 E3 E4 E5 E6 E7|st' r E1 E2|st' c1 d1 E1 E2 E3 E4 E5 E6 E7 E8 E9 E10 E11 E12
      |st' v r E1 E2 E3 E4 E5 E6 E7 E7b E8|st' i d1 r E1 E2 E3|st' E1 E2|st' E1].
    + (* move *)
      assert (Hreg' : o_reg st' = 0) by (unfold moved in E5; lia).
      destruct (o_fill st') as [f|] eqn:Ef.
      * (* n = 0: a pad byte cannot be pending *)
        assert (Hn0 : n = 0%nat).
        { destruct Hn as [Hn|Hn]; [exact Hn|]. destruct n as [|n]; [reflexivity|exfalso].
          destruct E3 as (_ & _ & _ & _ & E3). rewrite Ef in E3. destruct E3 as (_ & _ & _ & x & y & X1 & X2 & X3).
          rewrite <- E1 in HT. unfold strm, pending in HT. rewrite Ef, app_assoc, X1 in HT. cbn in HT. congruence. }
        subst n.
        destruct (IH st' 0%nat c d t E3 ltac:(lia) ltac:(congruence) Hreg' Hc0 Hc1 Hl (or_introl eq_refl)
          ltac:(rewrite E1; exact HT) H52) as (s2 & F1 & F2 & F3 & F4 & F5 & F6 & F7).
        exists s2. split; [exact F1|]. split; [congruence|]. spl.
      * destruct (IH st' n c d t E3 ltac:(lia) ltac:(congruence) Hreg' Hc0 Hc1 Hl (or_intror Ef)
          ltac:(rewrite E1; exact HT) H52) as (s2 & F1 & F2 & F3 & F4 & F5 & F6 & F7).
        exists s2. split; [exact F1|]. split; [congruence|]. spl.
    + destruct n as [|n].
      { cbn in HT. congruence. }
      rewrite E2 in HT. cbn [repeat app] in HT. injection HT as HT.
      destruct (IH st' n c d t E4 ltac:(lia) ltac:(congruence) ltac:(congruence) Hc0 Hc1 Hl (or_intror E6) HT H52)
        as (s2 & F1 & F2 & F3 & F4 & F5 & F6 & F7).
      exists s2. split; [exact F1|]. split; [congruence|]. spl.
    + exfalso. rewrite E2 in HT. destruct n; cbn in HT; congruence.
    + rewrite E3 in HT. destruct n; [|cbn in HT; congruence]. cbn [repeat app] in HT.
      assert (c1 = c) by congruence. subst c1.
      symmetry in HT. destruct (HD _ _ HT) as (<- & ->).
      exists st'. split; [reflexivity|]. split; [assumption|]. split; [assumption|]. split; [assumption|].
      split; [assumption|]. split; [intros _; split; [congruence|]; split; [congruence|reflexivity]|].
      intros ->. exfalso.
      destruct (H52 eq_refl) as (v & Hd & Hv). subst d.
      apply (E12 eq_refl Hreg).
    + rewrite E2 in HT. destruct n; [|cbn in HT; congruence]. cbn [repeat app] in HT.
      assert (c = 52) by congruence. subst c.
      rewrite E7b, Hreg, Hov in *. unfold chain in HT. cbn [Z.eqb overload orb app] in HT.
      unfold overload in HT. cbn [Z.eqb orb app] in HT. rewrite app_nil_r in HT.
      change (52 :: 1 :: v :: r) with (52 :: zlen [v] :: [v] ++ r) in HT.
      symmetry in HT. destruct (HD _ _ HT) as (-> & ->).
      exists st'. split; [reflexivity|]. split; [assumption|]. split; [assumption|]. split; [assumption|].
      split; [assumption|]. split; [congruence|]. intros _. rewrite E3. reflexivity.
    + exfalso. rewrite E1 in HT. destruct n; [|cbn in HT; congruence]. cbn [repeat app] in HT.
      assert (c = 52) by congruence. subst c. symmetry in HT. destruct (HD _ _ HT) as (<- & _).
      destruct (H52 eq_refl) as (v & -> & Hv). assert (HV : v = 1 \/ v = 2 \/ v = 3) by lia.
      destruct E2 as (X1 & X2 & X3). destruct HV as [-> | [-> | ->]]; congruence.
    + exfalso. rewrite E2 in HT. destruct n; discriminate.
    + exfalso. destruct E1 as [(c1 & Hs & X1 & X2)|(c1 & l & d1 & Hs & X1 & X2 & X3)]; rewrite Hs in HT.
      * destruct n as [|[|n]]; cbn in HT; congruence.
      * destruct n as [|n]; [|cbn in HT; congruence]. cbn [repeat app] in HT. injection HT as -> -> ->.
        rewrite zlen_app in X3. pose proof (zlen_nonneg t). lia.
Qed.
