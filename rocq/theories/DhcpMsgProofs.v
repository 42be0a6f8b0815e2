(** Replies: what an accepted OFFER or ACK must contain, and the effect of each. *)
From Verif Require Import Base HttpUrl Bits Arp DhcpOptSpec DhcpOpt DhcpOptProofs DhcpOptProps DhcpSpec Dhcp DhcpProofs.

Lemma zget_byte d i : Forall byte d -> 0 <= zget d i < 256.
Proof.
  intros H. unfold zget. destruct (Nat.lt_ge_cases (Z.to_nat i) (length d)) as [HL|HL].
  - rewrite Forall_forall in H. apply (H _ (nth_In d 0 HL)).
  - rewrite nth_overflow by lia. lia.
Qed.
Lemma du32_range d : Forall byte d -> 0 <= du32 d < 4294967296.
Proof.
  intros H. unfold du32, rd32.
  pose proof (zget_byte d 0 H). pose proof (zget_byte d (0 + 1) H). pose proof (zget_byte d (0 + 2) H). pose proof (zget_byte d (0 + 3) H). lia.
Qed.
Lemma du32_num d : du32 d = num d.
Proof. reflexivity. Qed.
Lemma rd32_range m o : Forall byte m -> 0 <= rd32 m o < 4294967296.
Proof.
  intros H. unfold rd32.
  pose proof (zget_byte m o H). pose proof (zget_byte m (o + 1) H). pose proof (zget_byte m (o + 2) H). pose proof (zget_byte m (o + 3) H). lia.
Qed.
Lemma nth_skipn0 (l : list Z) : forall a j, nth j (skipn a l) 0 = nth (a + j) l 0.
Proof.
  induction l as [|x l IH]; intros a j; [rewrite skipn_nil; destruct (a + j)%nat, j; reflexivity|].
  destruct a; [reflexivity|]. cbn. apply IH.
Qed.
Lemma nth_firstn0 : forall (l : list Z) k j, (j < k)%nat -> nth j (firstn k l) 0 = nth j l 0.
Proof.
  induction l as [|x l IHl]; intros k j Hj; [destruct k, j; reflexivity|].
  destruct k; [lia|]. destruct j; [reflexivity|]. cbn. apply IHl. lia.
Qed.
Lemma zget_fld m a n i : 0 <= a -> 0 <= i < n -> zget (fld m a n) i = zget m (a + i).
Proof.
  intros Ha Hi. unfold zget, fld. rewrite nth_firstn0 by lia. rewrite nth_skipn0. f_equal. lia.
Qed.
Lemma rd32_fld m a : 0 <= a -> rd32 m a = num (fld m a 4).
Proof.
  intros Ha. unfold rd32, num. rewrite !zget_fld by lia. rewrite Z.add_0_r. reflexivity.
Qed.

Lemma ip_sane_usable ip mask : 0 <= ip < 4294967296 -> ip_sane ip mask = true <-> usable ip mask.
Proof.
  intros Hr. unfold ip_sane, usable.
  assert (HM : (Z.land ip 4026531840 =? 3758096384) = true <-> 3758096384 <= ip < 4026531840).
  { change 4026531840 with (Z.shiftl 15 28) at 1.
    assert (HL : Z.land ip (Z.shiftl 15 28) = Z.shiftl (Z.land (Z.shiftr ip 28) 15) 28).
    { apply Z.bits_inj'. intros n Hn. rewrite Z.land_spec, !Z.shiftl_spec by lia.
      destruct (Z.lt_ge_cases n 28).
      - rewrite (Z.testbit_neg_r 15), (Z.testbit_neg_r (Z.land _ _)) by lia. apply andb_false_r.
      - rewrite Z.land_spec, Z.shiftr_spec by lia. f_equal. f_equal. lia. }
    rewrite HL. rewrite Z.shiftr_div_pow2 by lia. rewrite Z.shiftl_mul_pow2 by lia.
    change 15 with (Z.ones 4). rewrite Z.land_ones by lia.
    change (2 ^ 28) with 268435456. change (2 ^ 4) with 16.
    assert (0 <= ip / 268435456 < 16) by lia. rewrite Z.mod_small by lia. lia. }
  destruct ((ip =? 0) || (ip =? 4294967295)) eqn:E1.
  { split; [discriminate|]. intros (? & _). lia. }
  destruct (Z.land ip 4026531840 =? 3758096384) eqn:E2.
  { split; [discriminate|]. intros (_ & H & _). exfalso. apply H. apply HM. reflexivity. }
  assert (HM' : ~ (3758096384 <= ip < 4026531840)) by (intros X; apply HM in X; discriminate).
  destruct (negb (mask =? 0) && (Z.lor ip mask =? 4294967295)) eqn:E3.
  - split; [discriminate|]. intros (_ & _ & H). exfalso. apply H; lia.
  - split; [|reflexivity]. intros _. split; [lia|]. split; [assumption|]. intros Hm. lia.
Qed.

(** ** OFFER *)
Definition no_opt (c : Z) (os : optl) : Prop := forall d, ~ In (c, d) os.
Lemma offer_inner_spec : forall os sv seen mask sv' seen' mask', offer_inner os sv seen mask = (sv', seen', mask', true) ->
  sv' = last_num 54 sv os /\ mask' = last_num 1 mask os /\
  (seen' = true -> seen = true \/ exists d, In (54, d) os) /\
  (forall c d, In (c, d) os -> c = 54 \/ c = 1 -> 4 <= zlen d).
Proof.
  induction os as [|[c d] os IH]; intros sv seen mask sv' seen' mask' H; cbn [offer_inner] in H.
  - injection H as -> -> ->. cbn. split; [reflexivity|]. split; [reflexivity|]. split; [auto|]. intros ? ? [].
  - unfold last_num. cbn [last_opt].
    destruct (c =? 54) eqn:E54.
    + destruct (zlen d <? 4) eqn:EL; [discriminate|]. apply IH in H as (A1 & A2 & A3 & A4).
      unfold last_num in *. replace (c =? 1) with false by lia.
      split. { rewrite A1. destruct (last_opt 54 os); [reflexivity|]. apply du32_num. }
      split. { rewrite A2. destruct (last_opt 1 os); reflexivity. }
      split. { intros _. right. exists d. left. f_equal. lia. }
      intros c1 d1 [X|X] Hc; [injection X as <- <-; lia|]. eapply A4; eauto.
    + destruct (c =? 1) eqn:E1.
      * destruct (zlen d <? 4) eqn:EL; [discriminate|]. apply IH in H as (A1 & A2 & A3 & A4).
        unfold last_num in *.
        split. { rewrite A1. destruct (last_opt 54 os); reflexivity. }
        split. { rewrite A2. destruct (last_opt 1 os); [reflexivity|]. apply du32_num. }
        split. { intros X. destruct (A3 X) as [?|(d0 & ?)]; [auto|]. right. exists d0. right. assumption. }
        intros c1 d1 [X|X] Hc; [injection X as <- <-; lia|]. eapply A4; eauto.
      * apply IH in H as (A1 & A2 & A3 & A4). unfold last_num in *.
        split. { rewrite A1. destruct (last_opt 54 os); reflexivity. }
        split. { rewrite A2. destruct (last_opt 1 os); reflexivity. }
        split. { intros X. destruct (A3 X) as [?|(d0 & ?)]; [auto|]. right. exists d0. right. assumption. }
        intros c1 d1 [X|X] Hc; [injection X as <- <-; lia|]. eapply A4; eauto.
Qed.

Lemma offer_outer_spec m fin : forall os s s' ok, d_ip s = 0 -> offer_outer m s os fin = (s', ok) ->
  (ok = false -> exists sv, s' = up_server s sv) /\
  (ok = true -> exists pre post sv mask, os = pre ++ (53, [2]) :: post /\ fin = Some true /\
     (exists d, In (54, d) post) /\ (forall c d, In (c, d) post -> c = 54 \/ c = 1 -> 4 <= zlen d) /\
     sv = last_num 54 0 post /\ mask = last_num 1 4294967040 post /\ ip_sane (m_yiaddr m) mask = true /\
     s' = up_st (cancel_timer (up_ip (up_server s sv) (m_yiaddr m) mask)) REQUEST_SENT).
Proof.
  induction os as [|[c d] os IH]; intros s s' ok Hip H; cbn [offer_outer] in H.
  - rewrite Hip in H. cbn [Z.eqb negb] in H. rewrite andb_false_r in H.
    assert (HH : (s, false) = (s', ok)) by (destruct fin as [[|]|]; exact H).
    injection HH as <- <-. split; [|discriminate]. intros _. exists (d_server s). destruct s; reflexivity.
  - assert (SKIP : offer_outer m s os fin = (s', ok) ->
       (ok = false -> exists sv, s' = up_server s sv) /\
       (ok = true -> exists pre post sv mask, (c, d) :: os = pre ++ (53, [2]) :: post /\ fin = Some true /\
        (exists d, In (54, d) post) /\ (forall c d, In (c, d) post -> c = 54 \/ c = 1 -> 4 <= zlen d) /\
        sv = last_num 54 0 post /\ mask = last_num 1 4294967040 post /\ ip_sane (m_yiaddr m) mask = true /\
        s' = up_st (cancel_timer (up_ip (up_server s sv) (m_yiaddr m) mask)) REQUEST_SENT)).
    { intros HS. destruct (IH s s' ok Hip HS) as (A1 & A2). split; [exact A1|].
      intros Hok. destruct (A2 Hok) as (pre & post & sv & mask & -> & B). exists ((c, d) :: pre), post, sv, mask.
      split; [reflexivity|exact B]. }
    assert (FAIL : (s, false) = (s', ok) -> 
       (ok = false -> exists sv, s' = up_server s sv) /\
       (ok = true -> exists pre post sv mask, (c, d) :: os = pre ++ (53, [2]) :: post /\ fin = Some true /\
        (exists d, In (54, d) post) /\ (forall c d, In (c, d) post -> c = 54 \/ c = 1 -> 4 <= zlen d) /\
        sv = last_num 54 0 post /\ mask = last_num 1 4294967040 post /\ ip_sane (m_yiaddr m) mask = true /\
        s' = up_st (cancel_timer (up_ip (up_server s sv) (m_yiaddr m) mask)) REQUEST_SENT)).
    { intros X. injection X as <- <-. split; [|discriminate]. intros _. exists (d_server s). destruct s; reflexivity. }
    destruct (c =? 53) eqn:E53; [|apply SKIP; exact H].
    destruct (zlen d =? 1) eqn:EL; cbn [negb] in H; [|apply FAIL; exact H].
    destruct (zget d 0 =? 2) eqn:E2; [|apply SKIP; exact H].
    destruct (offer_inner os (d_server s) false 4294967040) as [[[sv seen] mask] okk] eqn:EI.
    assert (FAIL2 : (up_server s sv, false) = (s', ok) -> 
       (ok = false -> exists sv, s' = up_server s sv) /\
       (ok = true -> exists pre post sv mask, (c, d) :: os = pre ++ (53, [2]) :: post /\ fin = Some true /\
        (exists d, In (54, d) post) /\ (forall c d, In (c, d) post -> c = 54 \/ c = 1 -> 4 <= zlen d) /\
        sv = last_num 54 0 post /\ mask = last_num 1 4294967040 post /\ ip_sane (m_yiaddr m) mask = true /\
        s' = up_st (cancel_timer (up_ip (up_server s sv) (m_yiaddr m) mask)) REQUEST_SENT)).
    { intros X. injection X as <- <-. split; [|discriminate]. intros _. exists sv. reflexivity. }
    destruct okk; cbn [negb] in H; [|apply FAIL2; exact H].
    destruct fin as [[|]|]; [|apply FAIL2; exact H..].
    destruct seen; cbn [negb] in H; [|apply FAIL2; exact H].
    destruct (ip_sane (m_yiaddr m) mask) eqn:ES; cbn [negb] in H; [|apply FAIL2; exact H].
    injection H as <- <-. split; [discriminate|]. intros _.
    apply offer_inner_spec in EI as (A1 & A2 & A3 & A4).
    destruct (A3 eq_refl) as [X|X]; [discriminate|].
    exists [], os, sv, mask. cbn [app].
    split. { f_equal. f_equal; [lia|]. destruct d as [|x [|y d]]; [cbn in EL; lia| |rewrite !zlen_cons in EL; pose proof (zlen_nonneg d); lia].
             unfold zget in E2. cbn in E2. f_equal. lia. }
    split; [reflexivity|]. split; [assumption|]. split; [assumption|].
    split. { rewrite A1. unfold last_num. destruct X as (d0 & X).
             assert (HN : last_opt 54 os <> None).
             { clear - X. induction os as [|[c1 d1] os IHo]; [destruct X|]. cbn. destruct X as [X|X].
               - injection X as -> ->. destruct (last_opt 54 os); [discriminate|]. cbn. discriminate.
               - specialize (IHo X). destruct (last_opt 54 os); [discriminate|congruence]. }
             destruct (last_opt 54 os); [reflexivity|congruence]. }
    split; [assumption|]. split; [assumption|]. reflexivity.
Qed.

(** ** ACK *)
Lemma last_opt_cons c c' d os : last_opt c ((c', d) :: os) =
  match last_opt c os with Some d' => Some d' | None => if c' =? c then Some d else None end.
Proof. reflexivity. Qed.
Definition upd {A} (new : option A) (old : option A) : option A := match new with Some v => Some v | None => old end.
Lemma ack_inner_spec s : forall os k k', ack_inner s k os = Some k' ->
  c_server k' = upd (option_map num (last_opt 54 os)) (c_server k) /\
  c_ip k' = upd (option_map num (last_opt 50 os)) (c_ip k) /\
  c_mask k' = upd (option_map num (last_opt 1 os)) (c_mask k) /\
  c_gw k' = upd (option_map num (last_opt 3 os)) (c_gw k) /\
  c_lease k' = last_num 51 (c_lease k) os /\ c_renew k' = last_num 58 (c_renew k) os /\
  c_rebind k' = last_num 59 (c_rebind k) os /\
  (forall d, In (54, d) os -> 4 <= zlen d /\ (d_server s = 0 \/ num d = d_server s)) /\
  (forall c d, In (c, d) os -> c = 50 \/ c = 1 \/ c = 3 \/ c = 51 \/ c = 58 \/ c = 59 -> 4 <= zlen d).
Proof.
  induction os as [|[c d] os IH]; intros k k' H; cbn [ack_inner] in H.
  - injection H as <-. cbn. repeat (split; [reflexivity|]). split; [intros ? []|intros ? ? []].
  - destruct (ack_opt s k c d) as [k1|] eqn:E; [|discriminate].
    apply IH in H as (A1 & A2 & A3 & A4 & A5 & A6 & A7 & A8 & A9). unfold last_num in *.
    rewrite !last_opt_cons.
    assert (HIN : forall c1 d1, In (c1, d1) ((c, d) :: os) -> (c1 = c /\ d1 = d) \/ In (c1, d1) os).
    { intros c1 d1 [X|X]; [left; injection X as <- <-; auto|right; exact X]. }
    unfold ack_opt in E.
    destruct (c =? 54) eqn:E54.
    { destruct (zlen d <? 4) eqn:EL; [discriminate|].
      destruct (negb (d_server s =? 0) && negb (du32 d =? d_server s)) eqn:ES; [discriminate|].
      injection E as <-. cbn [c_server c_ip c_mask c_gw c_dns c_lease c_renew c_rebind] in *.
      assert (c = 54) by lia. subst c. cbn [Z.eqb Pos.eqb].
      repeat split; try (rewrite ?A1, ?A2, ?A3, ?A4, ?A5, ?A6, ?A7;
         repeat match goal with |- context [last_opt ?x os] => destruct (last_opt x os) end; reflexivity).
      - apply HIN in H as [(_ & ->)|H]; [lia|apply (A8 _ H)].
      - apply HIN in H as [(_ & ->)|H]; [rewrite <- du32_num; lia|apply (A8 _ H)].
      - intros c1 d1 H Hc. apply HIN in H as [(-> & ->)|H]; [lia|]. eapply A9; eauto. }
    assert (HSV : (if c =? 54 then @Some (list Z) d else None) = None) by (rewrite E54; reflexivity).
    rewrite E54 in *.
    assert (H8 : forall d0, In (54, d0) ((c, d) :: os) -> 4 <= zlen d0 /\ (d_server s = 0 \/ num d0 = d_server s)).
    { intros d0 H. apply HIN in H as [(X & _)|H]; [lia|apply (A8 _ H)]. }
    destruct (c =? 50) eqn:E50;
    [|destruct (c =? 1) eqn:E1;
    [|destruct (c =? 3) eqn:E3;
    [|destruct ((c =? 6) && (d_dns s =? 0)) eqn:E6;
    [|destruct (c =? 51) eqn:E51;
    [|destruct (c =? 58) eqn:E58;
    [|destruct (c =? 59) eqn:E59]]]]]]; try (destruct (zlen d <? 4) eqn:EL; [discriminate|]); injection E as <-;
    cbn [c_server c_ip c_mask c_gw c_dns c_lease c_renew c_rebind] in *;
    repeat match goal with |- context [c =? ?n] => first [replace (c =? n) with true by lia | replace (c =? n) with false by lia] end;
    (split; [rewrite A1; destruct (last_opt 54 os); reflexivity|]);
    (split; [rewrite A2; destruct (last_opt 50 os); reflexivity|]);
    (split; [rewrite A3; destruct (last_opt 1 os); reflexivity|]);
    (split; [rewrite A4; destruct (last_opt 3 os); reflexivity|]);
    (split; [rewrite A5; destruct (last_opt 51 os); reflexivity|]);
    (split; [rewrite A6; destruct (last_opt 58 os); reflexivity|]);
    (split; [rewrite A7; destruct (last_opt 59 os); reflexivity|]);
    (split; [exact H8|]);
    (intros c1 d1 H Hc; apply HIN in H as [(-> & ->)|H]; [lia|eapply A9; eauto]).
Qed.

Lemma ack_outer_spec e m fin : forall os s s' o, ack_outer e m s os fin = Some (s', o) ->
  exists pre post k, os = pre ++ (53, [5]) :: post /\ fin = Some true /\ ack_inner s cand0 post = Some k /\
    ack_commit e m s k = Some (s', o).
Proof.
  induction os as [|[c d] os IH]; intros s s' o H; cbn [ack_outer] in H; [discriminate|].
  destruct (c =? 53) eqn:E53.
  - destruct (zlen d =? 1) eqn:EL; cbn [negb] in H; [|discriminate].
    destruct (zget d 0 =? 5) eqn:E5; [|discriminate].
    destruct (ack_inner s cand0 os) as [k|] eqn:EI; [|discriminate].
    destruct fin as [[|]|]; try discriminate.
    exists [], os, k. split; [|auto]. cbn [app]. f_equal. f_equal; [lia|].
    destruct d as [|x [|y d]]; [cbn in EL; lia| |rewrite !zlen_cons in EL; pose proof (zlen_nonneg d); lia].
    unfold zget in E5. cbn in E5. f_equal. lia.
  - apply IH in H as (pre & post & k & -> & B). exists ((c, d) :: pre), post, k. split; [reflexivity|exact B].
Qed.

Lemma lease_times_ok l r b : 1 <= l -> 0 <= r -> 0 <= b -> forall r' b', lease_times l r b = (r', b') ->
  1 <= r' /\ r' <= b' /\ b' <= l /\ (2 <= l -> r' < b') /\ (3 <= l -> b' < l) /\
  (0 < r < b /\ b < l -> r' = r /\ b' = b).
Proof.
  intros Hl Hr Hb r' b'. unfold lease_times.
  destruct ((r =? 0) || (b =? 0) || (l <=? r) || (l <=? b) || (b <=? r)) eqn:E.
  - intros H. injection H as <- <-.
    destruct (l / 2 =? 0) eqn:E1.
    + assert (l = 1) by lia. subst l. change (1 * 7 / 8) with 0. cbn. lia.
    + destruct (l * 7 / 8 <=? l / 2) eqn:E2.
      * assert (l = 2 \/ l = 3) by lia. destruct H as [-> | ->]; vm_compute in E2; cbn; try discriminate; lia.
      * destruct (l <? l * 7 / 8) eqn:E3; lia.
  - intros H. injection H as <- <-. replace (r =? 0) with false by lia. replace (b <=? r) with false by lia.
    replace (l <? b) with false by lia. lia.
Qed.

(** The effect of a commit *)
Lemma ack_commit_inv e m s k s' o : TInv s -> 0 <= d_now s -> 0 <= c_lease k -> 0 <= c_renew k -> 0 <= c_rebind k ->
  ack_commit e m s k = Some (s', o) ->
  exists sv, c_server k = Some sv /\ c_lease k <> 0 /\
    i_ip s' = (match c_ip k with Some v => v | None => m_yiaddr m end) /\
    i_mask s' = (match c_mask k with Some v => v | None => if negb (i_mask s =? 0) then i_mask s else d_omask s end) /\
    i_gw s' = (match c_gw k with Some g => g | None => i_gw s end) /\
    ip_sane (i_ip s') (i_mask s') = true /\ i_mask s' <> 0 /\
    d_st s' = DAD /\ d_server s' = sv /\ d_now s' = d_now s /\ d_xid s' = d_xid s /\ d_mac s' = d_mac s /\
    d_expires s' = d_now s + 1000 * c_lease k /\
    DInv s' /\ (e_room e = true -> live s') /\
    (0 < c_renew k < c_rebind k /\ c_rebind k < c_lease k ->
       d_renew s' = d_now s + 1000 * c_renew k /\ d_rebind s' = d_now s + 1000 * c_rebind k) /\
    (2 <= c_lease k -> d_renew s' < d_rebind s') /\ (3 <= c_lease k -> d_rebind s' < d_expires s').
Proof.
  intros HT Hn HL HR HB H. unfold ack_commit in H.
  set (ip := match c_ip k with Some v => v | None => m_yiaddr m end) in *.
  set (mask := match c_mask k with Some v => v | None => if negb (i_mask s =? 0) then i_mask s else d_omask s end) in *.
  destruct (c_server k) as [sv|]; [|discriminate].
  destruct (negb (c_lease k =? 0) && negb (mask =? 0) && ip_sane ip mask) eqn:E; [|discriminate].
  apply andb_true_iff in E as (E & ES). apply andb_true_iff in E as (E1 & E2).
  cbv zeta in H.
  match type of H with context [cancel_timer ?x] => set (s1 := x) in H end.
  assert (HT1 : TInv s1).
  { unfold s1, TInv, tbound in *. ds. assumption. }
  pose proof (cancel_clear s1 HT1) as Hcl.
  assert (K : i_ip (cancel_timer s1) = ip /\ i_mask (cancel_timer s1) = mask /\
     i_gw (cancel_timer s1) = (match c_gw k with Some g => g | None => i_gw s end) /\ d_now (cancel_timer s1) = d_now s /\
     d_server (cancel_timer s1) = sv /\ d_xid (cancel_timer s1) = d_xid s /\ d_mac (cancel_timer s1) = d_mac s /\
     d_count (cancel_timer s1) = 0).
  { unfold cancel_timer. ds. destruct (d_tid s1 =? 0); unfold s1; ds; repeat split; try reflexivity. }
  set (s2 := cancel_timer s1) in *. clearbody s2. destruct K as (K1 & K2 & K3 & K4 & K5 & K6 & K7 & K8).
  set (s3 := up_probes (up_st (up_ip s2 (i_ip s2) (d_omask s2)) DAD) 0) in *.
  destruct (lease_times (c_lease k) (c_renew k) (c_rebind k)) as [r b] eqn:ELT.
  pose proof (lease_times_ok (c_lease k) (c_renew k) (c_rebind k) ltac:(lia) HR HB r b ELT) as (L1 & L2 & L3 & L4 & L5 & L6).
  unfold schedule_lease in H. rewrite ELT in H. replace (c_lease k =? 0) with false in H by lia.
  set (s4 := up_lease s3 (d_now s3 + r * 1000) (d_now s3 + b * 1000) (d_now s3 + c_lease k * 1000)) in *.
  assert (Hcl4 : clear s4) by (unfold clear, s4, s3 in *; ds; assumption).
  destruct (schedule_at_clear e s4 (d_renew s4) Hcl4) as (tid & h & n & E4 & Hnid & HH).
  rewrite E4 in H. ds.
  assert (HHC : heap_cancel h tid = []).
  { destruct HH as [(_ & -> & ->)|(_ & _ & ->)]; [reflexivity|]. unfold heap_cancel. cbn. rewrite Z.eqb_refl. reflexivity. }
  rewrite HHC in H.
  match type of H with context [send_probe e ?x] => set (s5 := x) in H end.
  assert (Hcl5 : clear s5) by (unfold s5, clear; ds; auto).
  destruct (send_probe e s5) as [o1 ok1].
  set (s6 := if ok1 then up_probes s5 1 else s5) in *.
  assert (H6 : clear s6 /\ d_st s6 = DAD /\ i_ip s6 = ip /\ i_mask s6 = mask /\ i_gw s6 = (match c_gw k with Some g => g | None => i_gw s end) /\
     d_now s6 = d_now s /\ d_server s6 = sv /\ d_xid s6 = d_xid s /\ d_mac s6 = d_mac s /\ d_count s6 = 0 /\
     0 <= d_probes s6 <= 3 /\ d_ip s6 = ip /\ d_renew s6 = d_now s + r * 1000 /\ d_rebind s6 = d_now s + b * 1000 /\
     d_expires s6 = d_now s + c_lease k * 1000).
  { unfold s6, s5, s4, s3, clear in *. destruct ok1; ds; rewrite ?K1, ?K4; repeat split; try assumption; try lia; tauto. }
  clearbody s6. clear HH s5 Hcl5 E4 Hcl4 s4 s3.
  destruct H6 as (Hcl6 & M1 & M2 & M3 & M4 & M5 & M6 & M7 & M8 & M9 & M10 & M11 & M12 & M13 & M14).
  destruct (schedule_at_clear e s6 (d_now s6 + 1000) Hcl6) as (tid6 & h6 & n6 & E6 & Hnid6 & HH6).
  rewrite E6 in H. injection H as <- <-. exists sv. ds. rewrite M2, M3.
  split; [reflexivity|]. split; [lia|]. split; [reflexivity|]. split; [reflexivity|]. split; [assumption|].
  split; [assumption|]. split; [lia|]. split; [assumption|]. split; [assumption|]. split; [assumption|].
  split; [assumption|]. split; [assumption|]. split; [lia|].
  split.
  { unfold DInv, TInv, LInv, CInv, tbound. ds. rewrite M1, M2, M3.
    split.
    - split; [lia|]. destruct HH6 as [(_ & -> & ->)|(_ & Ht & ->)]; [left; auto|].
      right. eexists. split; [reflexivity|]. lia.
    - split; [|split; [|lia]].
      + split; [lia|]. split; [lia|]. split; [lia|]. split; [lia|assumption].
      + split; [lia|]. split; [nost|lia]. }
  split. { intros Hr. unfold live. ds. intros _. destruct HH6 as [(HT6 & _)|(_ & _ & ->)]; congruence. }
  split; [intros X; destruct (L6 X) as (-> & ->); lia|]. split; lia.
Qed.
