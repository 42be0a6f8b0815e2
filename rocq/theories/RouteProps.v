(** C09, C10, C11: prefixes, route lookup, route table. *)
From Verif Require Import Base Bits Route.
From Coq Require Import Permutation.

Definition addr32 (a : Z) : Prop := 0 <= a < 4294967296.
(** Netmask of a prefix length: [len] ones followed by zeros. *)
Definition netmask (len : Z) : Z := 4294967296 - 2 ^ (32 - len).
(** [a] and [p] agree on their first [len] bits. *)
Definition same_prefix (len a p : Z) : Prop := a / 2 ^ (32 - len) = p / 2 ^ (32 - len).

(** ** C11 *)
Lemma netmask_range len : 0 <= len <= 32 -> 0 <= netmask len < 4294967296.
Proof.
  intros H. unfold netmask. pose proof (Z.pow_pos_nonneg 2 (32 - len) ltac:(lia) ltac:(lia)).
  assert (2 ^ (32 - len) <= 2 ^ 32) by (apply Z.pow_le_mono_r; lia). change (2 ^ 32) with 4294967296 in *. lia.
Qed.
Lemma prefix_mask_netmask len : 0 <= len <= 32 -> prefix_mask len = netmask len.
Proof.
  intros H. unfold prefix_mask, netmask. destruct (len =? 0) eqn:E; [apply Z.eqb_eq in E; subst; reflexivity|].
  destruct (32 <=? len) eqn:E2; [replace len with 32 by lia; reflexivity|].
  unfold u32. rewrite Z.shiftl_mul_pow2 by lia. set (k := 32 - len).
  assert (Hk : 0 < 2 ^ k <= 4294967296).
  { split; [apply Z.pow_pos_nonneg; lia|]. change 4294967296 with (2 ^ 32). apply Z.pow_le_mono_r; lia. }
  set (p := 2 ^ k) in *. clearbody p. replace (4294967295 * p) with ((4294967296 - p) + (p - 1) * 4294967296) by lia.
  rewrite Z.mod_add by lia. apply Z.mod_small. lia.
Qed.

Lemma match_prefix_iff a p len : addr32 a -> addr32 p -> 0 <= len <= 32 ->
  route_match_prefix a p len = true <-> same_prefix len a p.
Proof.
  intros Ha Hp Hl. unfold route_match_prefix, same_prefix. rewrite prefix_mask_netmask by assumption. unfold netmask.
  destruct (len =? 0) eqn:E.
  - apply Z.eqb_eq in E. subst. change (2 ^ (32 - 0)) with 4294967296. unfold addr32 in *. rewrite !Z.div_small by lia. tauto.
  - rewrite !land_netmask by (unfold addr32 in *; lia). rewrite Z.eqb_eq.
    pose proof (Z.pow_pos_nonneg 2 (32 - len) ltac:(lia) ltac:(lia)). split; intros G.
    + apply Z.mul_cancel_r in G; [assumption|lia].
    + rewrite G. reflexivity.
Qed.

Lemma mask_loop_spec mask : addr32 mask -> forall (todo : nat) (bit len : Z) (seen : bool), Z.of_nat todo + bit = 32 -> 0 <= bit ->
  (if seen then 0 <= len < bit else len = bit) ->
  mask / 2 ^ (32 - bit) = (2 ^ len - 1) * 2 ^ (bit - len) ->
  match mask_prefix_loop todo mask bit len seen with
  | Some n => 0 <= n <= 32 /\ mask = netmask n
  | None => forall n, 0 <= n <= 32 -> mask <> netmask n
  end.
Proof.
  intros Hm. induction todo as [|todo IH]; intros bit len seen HT Hb HS HM; cbn [mask_prefix_loop].
  - replace bit with 32 in * by lia. replace (32 - 32) with 0 in HM by lia. rewrite Z.div_1_r in HM.
    assert (Hlen : 0 <= len <= 32) by (destruct seen; lia). split; [assumption|].
    unfold netmask. rewrite HM. rewrite Z.mul_sub_distr_r. rewrite <- Z.pow_add_r by lia.
    replace (len + (32 - len)) with 32 by lia. lia.
  - assert (Hlen : 0 <= len <= bit) by (destruct seen; lia).
    assert (EB : Z.shiftr 2147483648 bit = 2 ^ (31 - bit)).
    { rewrite Z.shiftr_div_pow2 by lia. change 2147483648 with (2 ^ 31). symmetry. apply Z.pow_sub_r; lia. }
    rewrite EB, land_pow2_zero by lia. rewrite negb_involutive.
    pose proof (testbit_div mask (31 - bit) ltac:(lia)) as TD. replace (31 - bit + 1) with (32 - bit) in TD by lia.
    rewrite HM in TD.
    destruct (Z.testbit mask (31 - bit)) eqn:ET; cbn [Z.b2z] in TD.
    + destruct seen.
      * (* a one after a zero: not a netmask *)
        intros n Hn EQ. assert (HQ : mask / 2 ^ (31 - bit) = (2 ^ 32 - 2 ^ (32 - n)) / 2 ^ (31 - bit)) by (rewrite EQ; reflexivity).
        rewrite TD in HQ. clear TD HM ET IH.
        assert (P2 : forall a b, 0 <= a <= b -> 2 ^ b = 2 ^ (b - a) * 2 ^ a).
        { intros a b Hab. rewrite <- Z.pow_add_r by lia. f_equal. lia. }
        pose proof (Z.pow_pos_nonneg 2 (31 - bit) ltac:(lia) ltac:(lia)) as Hpos.
        destruct (Z.le_gt_cases (31 - bit) (32 - n)) as [Hc|Hc].
        -- (* n <= bit + 1 *)
           rewrite (P2 (31 - bit) 32) in HQ by lia. rewrite (P2 (31 - bit) (32 - n)) in HQ by lia.
           rewrite <- Z.mul_sub_distr_r in HQ. rewrite Z.div_mul in HQ by lia.
           replace (32 - (31 - bit)) with (bit + 1) in HQ by lia.
           replace (32 - n - (31 - bit)) with (bit + 1 - n) in HQ by lia.
           (* left side is odd; right side odd iff n = bit+1, then left = 2^(bit+1)-1 contradicts len<bit *)
           rewrite (Z.pow_add_r 2 bit 1) in HQ by lia. change (2 ^ 1) with 2 in HQ.
           destruct (Z.eq_dec n (bit + 1)) as [-> |Hnb].
           ++ replace (bit + 1 - (bit + 1)) with 0 in HQ by lia. change (2 ^ 0) with 1 in HQ.
              assert (HB : 2 ^ bit = 2 ^ len * 2 ^ (bit - len)) by (rewrite <- Z.pow_add_r by lia; f_equal; lia).
              rewrite HB in HQ. pose proof (Z.pow_pos_nonneg 2 (bit - len) ltac:(lia) ltac:(lia)) as HP1.
              assert (HP2 : 2 <= 2 ^ (bit - len)). { change 2 with (2 ^ 1) at 1. apply Z.pow_le_mono_r; lia. }
              set (A := 2 ^ len) in *. set (B := 2 ^ (bit - len)) in *. clearbody A B. lia.
           ++ replace (bit + 1 - n) with (bit - n + 1) in HQ by lia. rewrite (Z.pow_add_r 2 (bit - n) 1) in HQ by lia.
              change (2 ^ 1) with 2 in HQ. lia.
        -- (* n > bit + 1: top bits all ones *)
           assert (E32 : (2 ^ 32 - 2 ^ (32 - n)) / 2 ^ (31 - bit) = 2 ^ (bit + 1) - 1).
           { rewrite (P2 (31 - bit) 32) by lia. replace (32 - (31 - bit)) with (bit + 1) by lia.
             assert (L : 0 < 2 ^ (32 - n) <= 2 ^ (31 - bit)).
             { split; [apply Z.pow_pos_nonneg; lia|apply Z.pow_le_mono_r; lia]. }
             symmetry. apply Z.div_unique with (r := 2 ^ (31 - bit) - 2 ^ (32 - n)); [left; lia|]. lia. }
           rewrite E32 in HQ. rewrite (Z.pow_add_r 2 bit 1) in HQ by lia. change (2 ^ 1) with 2 in HQ.
           assert (HB : 2 ^ bit = 2 ^ len * 2 ^ (bit - len)) by (rewrite <- Z.pow_add_r by lia; f_equal; lia).
           rewrite HB in HQ.
           assert (HP2 : 2 <= 2 ^ (bit - len)). { change 2 with (2 ^ 1) at 1. apply Z.pow_le_mono_r; lia. }
           set (A := 2 ^ len) in *. set (B := 2 ^ (bit - len)) in *. clearbody A B. lia.
      * subst len. assert (EU : u8 (bit + 1) = bit + 1) by (unfold u8; apply Z.mod_small; lia). rewrite EU.
        apply IH; [lia|lia|reflexivity|].
        replace (32 - (bit + 1)) with (31 - bit) by lia. rewrite TD.
        replace (bit - bit) with 0 by lia. replace (bit + 1 - (bit + 1)) with 0 by lia.
        rewrite (Z.pow_add_r 2 bit 1) by lia. change (2 ^ 1) with 2. change (2 ^ 0) with 1. lia.
    + apply IH; [lia|lia|lia|].
      replace (32 - (bit + 1)) with (31 - bit) by lia. rewrite TD.
      replace (bit + 1 - len) with (bit - len + 1) by lia. rewrite (Z.pow_add_r 2 (bit - len) 1) by lia.
      change (2 ^ 1) with 2. lia.
Qed.

Lemma mask_prefix_len_spec mask : addr32 mask ->
  match mask_prefix_len mask with
  | Some n => 0 <= n <= 32 /\ mask = netmask n
  | None => forall n, 0 <= n <= 32 -> mask <> netmask n
  end.
Proof.
  intros Hm. apply mask_loop_spec; [assumption|reflexivity|lia|reflexivity|].
  change (32 - 0) with 32. change (2 ^ 32) with 4294967296. rewrite Z.div_small by assumption. reflexivity.
Qed.
Lemma netmask_inj n m : 0 <= n <= 32 -> 0 <= m <= 32 -> netmask n = netmask m -> n = m.
Proof.
  intros Hn Hm H. unfold netmask in H. assert (E : 2 ^ (32 - n) = 2 ^ (32 - m)) by lia.
  apply Z.pow_inj_r in E; lia.
Qed.

(** A mask gets a prefix length iff it is contiguous, and then the length rebuilds the mask. *)
Theorem netmask_prefix_inverse mask : addr32 mask ->
  (forall n, mask_prefix_len mask = Some n <-> 0 <= n <= 32 /\ mask = netmask n) /\
  (forall n, mask_prefix_len mask = Some n -> prefix_mask n = mask).
Proof.
  intros Hm. pose proof (mask_prefix_len_spec mask Hm) as H. split.
  - intros n. destruct (mask_prefix_len mask) as [k|] eqn:E.
    + destruct H as [Hk EQ]. split.
      * intros [= <-]. auto.
      * intros [Hn E2]. f_equal. apply netmask_inj; [assumption|assumption|congruence].
    + split; [discriminate|]. intros [Hn E2]. exfalso. apply (H n Hn E2).
  - intros n E. rewrite E in H. destruct H as [Hn ->]. apply prefix_mask_netmask. assumption.
Qed.
Theorem prefix_mask_length len : 0 <= len <= 32 -> mask_prefix_len (prefix_mask len) = Some len /\ prefix_mask len = netmask len.
Proof.
  intros H. rewrite prefix_mask_netmask by assumption. split; [|reflexivity].
  apply (netmask_prefix_inverse (netmask len)); [apply netmask_range; assumption|auto].
Qed.
(** Prefix matching compares exactly the leading bits. *)
Theorem prefix_match_exact a p len : addr32 a -> addr32 p -> 0 <= len <= 32 ->
  route_match_prefix a p len = true <-> same_prefix len a p.
Proof. apply match_prefix_iff. Qed.

(** ** C09: lookup *)
Definition conf_ok (c : ipconf) : Prop := addr32 (c_ip c) /\ addr32 (c_mask c) /\ addr32 (c_gw c).
Definition route_ok (nif : Z) (r : route) : Prop :=
  r_used r = true -> 0 <= r_len r <= 32 /\ addr32 (r_prefix r) /\ addr32 (r_gw r) /\ 0 <= r_order r < 4294967295 /\ 0 <= r_if r < nif.

(** What can carry traffic to [dest]: a subnet of a configured interface, or a
    static route.  (len, age, interface, next hop); a connected subnet has age 0. *)
Inductive candidate (cs : list ipconf) (rs : list route) (dest : Z) : Z -> Z -> Z -> Z -> Prop :=
| cand_conn i c len : nth_error cs (Z.to_nat i) = Some c -> 0 <= i -> c_ip c <> 0 ->
    0 < len <= 32 -> c_mask c = netmask len -> same_prefix len dest (c_ip c) ->
    candidate cs rs dest len 0 i dest
| cand_static r : In r rs -> r_used r = true -> same_prefix (r_len r) dest (r_prefix r) ->
    candidate cs rs dest (r_len r) (r_order r) (r_if r) (if r_gw r =? 0 then dest else r_gw r).

(** [a] is at least as good as [b]: longer prefix, then older, then lower interface. *)
Definition at_least_as_good (len ord ifx len' ord' ifx' : Z) : Prop :=
  len' < len \/ (len = len' /\ (ord < ord' \/ (ord = ord' /\ ifx <= ifx'))).

Definition BI (cs : list ipconf) (dest : Z) (done : Z -> Z -> Z -> Z -> Prop) (b : best) : Prop :=
  if b_found b then done (b_len b) (b_ord b) (b_if b) (b_nh b) /\
    (forall l o i n, done l o i n -> at_least_as_good (b_len b) (b_ord b) (b_if b) l o i)
  else forall l o i n, ~ done l o i n.

Definition conn_upto (cs : list ipconf) (dest k : Z) : Z -> Z -> Z -> Z -> Prop :=
  fun len ord i nh => ord = 0 /\ nh = dest /\ exists c, nth_error cs (Z.to_nat i) = Some c /\ 0 <= i < k /\ c_ip c <> 0 /\
    0 < len <= 32 /\ c_mask c = netmask len /\ same_prefix len dest (c_ip c).

Lemma local_conf_iff c len dest : conf_ok c -> addr32 dest -> 0 < len <= 32 -> c_mask c = netmask len ->
  ip_is_local_conf c dest = true <-> same_prefix len dest (c_ip c).
Proof.
  intros (H1 & H2 & _) Hd Hl HM. unfold ip_is_local_conf. rewrite HM.
  assert (NZ : netmask len <> 0).
  { unfold netmask. assert (2 ^ (32 - len) < 2 ^ 32) by (apply Z.pow_lt_mono_r; lia). change (2 ^ 32) with 4294967296 in *. lia. }
  destruct (netmask len =? 0) eqn:E; [apply Z.eqb_eq in E; contradiction|].
  rewrite Z.eqb_eq. unfold netmask, same_prefix. rewrite !land_netmask by (unfold addr32 in *; lia).
  pose proof (Z.pow_pos_nonneg 2 (32 - len) ltac:(lia) ltac:(lia)). split; intros G.
  - apply Z.mul_cancel_r in G; [assumption|lia].
  - rewrite G. reflexivity.
Qed.

Lemma lookup_conn_spec all dest : Forall conf_ok all -> addr32 dest -> dest <> 0 ->
  forall cs k b, all = firstn (Z.to_nat k) all ++ cs -> 0 <= k <= zlen all -> zlen all - k = zlen cs ->
  (forall i c, nth_error all (Z.to_nat i) = Some c -> 0 <= i < k -> c_ip c <> dest) ->
  BI all dest (conn_upto all dest k) b ->
  match lookup_conn cs k dest b with
  | inl i => 0 <= i /\ (exists c, nth_error all (Z.to_nat i) = Some c /\ c_ip c = dest) /\
             (forall j c, nth_error all (Z.to_nat j) = Some c -> 0 <= j < i -> c_ip c <> dest)
  | inr b' => (forall c, In c all -> c_ip c <> dest) /\ BI all dest (conn_upto all dest (zlen all)) b' /\
              (b_found b' = false -> b' = b)
  end.
Proof.
  intros HC Hd Hd0. induction cs as [|c cs IH]; intros k b HA Hk HL HN HB; cbn [lookup_conn].
  - rewrite zlen_nil in HL. replace k with (zlen all) in * by lia. split; [|auto].
    intros c Hc. apply In_nth_error in Hc as [n Hn]. apply (HN (Z.of_nat n) c).
    + rewrite Nat2Z.id. assumption.
    + assert (n < length all)%nat by (apply nth_error_Some; congruence). unfold zlen. lia.
  - rewrite zlen_cons in HL. pose proof (zlen_nonneg cs) as Lc.
    assert (Hkn : nth_error all (Z.to_nat k) = Some c).
    { rewrite HA. assert (LF : length (firstn (Z.to_nat k) all) = Z.to_nat k) by (rewrite firstn_length; unfold zlen in *; lia).
      rewrite nth_error_app2 by lia. rewrite LF, Nat.sub_diag. reflexivity. }
    assert (HA' : all = firstn (Z.to_nat (k + 1)) all ++ cs).
    { replace (Z.to_nat (k + 1)) with (Z.to_nat k + 1)%nat by lia.
      rewrite <- (firstn_skipn (Z.to_nat k + 1) all) at 1. f_equal.
      assert (SK : skipn (Z.to_nat k) all = c :: cs).
      { rewrite HA at 1. rewrite skipn_app. assert (LF : length (firstn (Z.to_nat k) all) = Z.to_nat k) by (rewrite firstn_length; unfold zlen in *; lia).
        rewrite LF, Nat.sub_diag. rewrite skipn_all2 by lia. reflexivity. }
      replace (skipn (Z.to_nat k + 1) all) with (skipn 1 (skipn (Z.to_nat k) all)).
      - rewrite SK. reflexivity.
      - rewrite skipn_skipn. f_equal. lia. }
    assert (HCc : conf_ok c) by (rewrite Forall_forall in HC; apply HC; eapply nth_error_In; exact Hkn).
    assert (NEXT : forall b2, c_ip c <> dest -> BI all dest (conn_upto all dest (k + 1)) b2 -> (b_found b2 = false -> b2 = b) ->
      match lookup_conn cs (k + 1) dest b2 with
      | inl i => 0 <= i /\ (exists c, nth_error all (Z.to_nat i) = Some c /\ c_ip c = dest) /\
             (forall j c, nth_error all (Z.to_nat j) = Some c -> 0 <= j < i -> c_ip c <> dest)
      | inr b' => (forall c, In c all -> c_ip c <> dest) /\ BI all dest (conn_upto all dest (zlen all)) b' /\
              (b_found b' = false -> b' = b)
      end).
    { intros b2 Hne HB2 HF2. specialize (IH (k + 1) b2 HA' ltac:(lia) ltac:(lia)).
      assert (HN2 : forall i c, nth_error all (Z.to_nat i) = Some c -> 0 <= i < k + 1 -> c_ip c <> dest).
      { intros i c2 Hi Hik. destruct (Z.eq_dec i k) as [-> |Hik2]; [congruence|]. apply (HN i c2 Hi). lia. }
      specialize (IH HN2 HB2). destruct (lookup_conn cs (k + 1) dest b2) as [i|b3]; [assumption|].
      destruct IH as (I1 & I2 & I3). split; [assumption|]. split; [assumption|].
      intros F. specialize (I3 F). rewrite I3 in *. auto. }
    assert (SKIP : (forall l, ~ conn_upto all dest (k + 1) l 0 k dest) -> c_ip c <> dest -> BI all dest (conn_upto all dest (k + 1)) b).
    { intros HNC _. unfold BI in *. destruct (b_found b).
      - destruct HB as [B1 B2]. split.
        + destruct B1 as (E1 & E2 & c2 & N & R & REST). split; [assumption|]. split; [assumption|]. exists c2. split; [assumption|]. split; [lia|assumption].
        + intros l o i n (E1 & E2 & c2 & N & R & REST). destruct (Z.eq_dec i k) as [-> |Hik].
          * exfalso. apply (HNC l). split; [reflexivity|]. split; [reflexivity|]. exists c2. split; [assumption|]. split; [lia|assumption].
          * apply (B2 l o i n). split; [assumption|]. split; [assumption|]. exists c2. split; [assumption|]. split; [lia|assumption].
      - intros l o i n (E1 & E2 & c2 & N & R & REST). destruct (Z.eq_dec i k) as [-> |Hik].
        * apply (HNC l). split; [reflexivity|]. split; [reflexivity|]. exists c2. split; [assumption|]. split; [lia|assumption].
        * apply (HB l o i n). split; [assumption|]. split; [assumption|]. exists c2. split; [assumption|]. split; [lia|assumption]. }
    destruct (c_ip c =? 0) eqn:E0.
    { apply Z.eqb_eq in E0. apply NEXT; [lia| |auto]. apply SKIP; [|lia].
      intros l (_ & _ & c2 & N & _ & G & _). congruence. }
    apply Z.eqb_neq in E0. destruct (c_ip c =? dest) eqn:E1.
    { apply Z.eqb_eq in E1. split; [lia|]. split; [exists c; auto|]. exact HN. }
    apply Z.eqb_neq in E1.
    destruct (ip_is_local_conf c dest) eqn:E2; cbn [negb].
    2:{ apply NEXT; [assumption| |auto]. apply SKIP; [|assumption].
        intros l (_ & _ & c2 & N & _ & _ & L & M & SP). assert (c2 = c) by congruence. subst c2.
        apply (local_conf_iff c l dest HCc Hd L M) in SP. congruence. }
    pose proof (mask_prefix_len_spec (c_mask c) (proj1 (proj2 HCc))) as HML.
    destruct (mask_prefix_len (c_mask c)) as [len|].
    2:{ apply NEXT; [assumption| |auto]. apply SKIP; [|assumption].
        intros l (_ & _ & c2 & N & _ & _ & L & M & SP). assert (c2 = c) by congruence. subst c2.
        apply (HML l); [lia|assumption]. }
    destruct HML as [HL1 HL2].
    assert (HLpos : 0 < len).
    { destruct (Z.eq_dec len 0) as [-> |]; [|lia]. exfalso. unfold ip_is_local_conf in E2.
      change (netmask 0) with 0 in HL2. rewrite HL2 in E2. cbn in E2. lia. }
    assert (HSP : same_prefix len dest (c_ip c)) by (apply (local_conf_iff c len dest HCc Hd ltac:(lia) HL2); assumption).
    assert (HNEW : conn_upto all dest (k + 1) len 0 k dest).
    { split; [reflexivity|]. split; [reflexivity|]. exists c. split; [assumption|]. split; [lia|]. split; [assumption|]. split; [lia|]. auto. }
    assert (HUNIQ : forall l o i n, conn_upto all dest (k + 1) l o i n -> i = k /\ l = len /\ o = 0 \/ conn_upto all dest k l o i n).
    { intros l o i n (E3 & E4 & c2 & N & R & G & L & M & SP). destruct (Z.eq_dec i k) as [-> |Hik].
      - left. assert (c2 = c) by congruence. subst c2. split; [reflexivity|]. split; [|assumption]. apply netmask_inj; [lia|lia|congruence].
      - right. split; [assumption|]. split; [assumption|]. exists c2. split; [assumption|]. split; [lia|]. auto. }
    destruct (negb (b_found b) || (b_len b <? len)) eqn:E3.
    + apply NEXT; [assumption| |cbn; discriminate]. unfold BI. cbn [b_found b_len b_ord b_if b_nh]. split; [exact HNEW|].
      intros l o i n HD. destruct (HUNIQ l o i n HD) as [(-> & -> & ->)|HD2].
      * right. split; [reflexivity|]. right. lia.
      * unfold BI in HB. destruct (b_found b) eqn:EF.
        -- destruct HB as [B1 B2]. specialize (B2 l o i n HD2). cbn [negb orb] in E3. unfold at_least_as_good in *. lia.
        -- exfalso. eapply HB. exact HD2.
    + apply NEXT; [assumption| |auto]. unfold BI in *. destruct (b_found b) eqn:EF; [|discriminate].
      cbn [negb orb] in E3. destruct HB as [B1 B2]. split.
      * destruct B1 as (F1 & F2 & c2 & N & R & REST). split; [assumption|]. split; [assumption|]. exists c2. split; [assumption|]. split; [lia|assumption].
      * intros l o i n HD. destruct (HUNIQ l o i n HD) as [(-> & -> & ->)|HD2]; [|eapply B2; exact HD2].
        destruct B1 as (F1 & _ & c2 & _ & R & _). unfold at_least_as_good. lia.
Qed.

Definition statics (rs : list route) (dest : Z) : Z -> Z -> Z -> Z -> Prop :=
  fun l o i n => exists r, In r rs /\ r_used r = true /\ same_prefix (r_len r) dest (r_prefix r) /\
    l = r_len r /\ o = r_order r /\ i = r_if r /\ n = (if r_gw r =? 0 then dest else r_gw r).

Lemma lookup_static_spec cs nif dest : addr32 dest -> forall rs D b, Forall (route_ok nif) rs ->
  BI cs dest D b ->
  BI cs dest (fun l o i n => D l o i n \/ statics rs dest l o i n) (lookup_static rs dest b) /\
  (b_found (lookup_static rs dest b) = false -> lookup_static rs dest b = b).
Proof.
  intros Hd. induction rs as [|r rs IH]; intros D b HR HB; cbn [lookup_static].
  - split; [|auto]. unfold BI in *. destruct (b_found b).
    + destruct HB as [B1 B2]. split; [auto|]. intros l o i n [H|(r & [] & _)]. eapply B2; exact H.
    + intros l o i n [H|(r & [] & _)]. eapply HB; exact H.
  - inversion HR as [|? ? HR1 HR2]; subst.
    assert (SKIP : (forall l o i n, statics [r] dest l o i n -> False) ->
       BI cs dest (fun l o i n => D l o i n \/ statics (r :: rs) dest l o i n) (lookup_static rs dest b) /\
       (b_found (lookup_static rs dest b) = false -> lookup_static rs dest b = b)).
    { intros HN. destruct (IH D b HR2 HB) as [I1 I2]. split; [|assumption].
      assert (EQV : forall l o i n, D l o i n \/ statics (r :: rs) dest l o i n <-> D l o i n \/ statics rs dest l o i n).
      { intros l o i n. split; (intros [H|H]; [left; assumption|]).
        - destruct H as (x & Hin & REST). destruct Hin as [<- |Hin].
          + exfalso. apply (HN l o i n). exists r. split; [left; reflexivity|assumption].
          + right. exists x. auto.
        - right. destruct H as (x & Hin & REST). exists x. split; [right; assumption|assumption]. }
      unfold BI in *. destruct (b_found (lookup_static rs dest b)).
      - destruct I1 as [B1 B2]. split; [apply EQV; exact B1|]. intros l o i n H. apply EQV in H. eapply B2; exact H.
      - intros l o i n H. apply EQV in H. eapply I1; exact H. }
    destruct (r_used r) eqn:EU; cbn [negb].
    2:{ apply SKIP. intros l o i n (x & [<- |[]] & U & _). congruence. }
    specialize (HR1 EU). destruct HR1 as (RL & RP & RG & RO & RI).
    destruct (route_match_prefix dest (r_prefix r) (r_len r)) eqn:EM; cbn [negb].
    2:{ apply SKIP. intros l o i n (x & [<- |[]] & U & SP & _). apply (match_prefix_iff dest (r_prefix r) (r_len r) Hd RP RL) in SP. congruence. }
    apply (match_prefix_iff dest (r_prefix r) (r_len r) Hd RP RL) in EM.
    set (nb := {| b_if := r_if r; b_nh := (if negb (r_gw r =? 0) then r_gw r else dest); b_len := r_len r; b_ord := r_order r; b_found := true |}).
    set (D' := fun l o i n => D l o i n \/ statics [r] dest l o i n).
    assert (HX : exists b', (if route_better r b then lookup_static rs dest nb else lookup_static rs dest b) = lookup_static rs dest b' /\
               BI cs dest D' b' /\ b_found b' = true).
    { assert (HSr : statics [r] dest (r_len r) (r_order r) (r_if r) (b_nh nb)).
      { exists r. split; [left; reflexivity|]. split; [assumption|]. split; [assumption|]. split; [reflexivity|]. split; [reflexivity|].
        split; [reflexivity|]. subst nb. cbn. destruct (r_gw r =? 0); reflexivity. }
      unfold route_better. unfold BI in HB. destruct (b_found b) eqn:EF; cbn [negb orb].
      - destruct HB as [B1 B2].
        destruct ((b_len b <? r_len r) || (r_len r =? b_len b) && (r_order r <? b_ord b) || (r_len r =? b_len b) && (r_order r =? b_ord b) && (r_if r <? b_if b)) eqn:EB.
        + exists nb. split; [reflexivity|]. split; [|reflexivity]. unfold BI. cbn [b_found b_len b_ord b_if nb]. split; [right; exact HSr|].
          intros l o i n [H|H].
          * specialize (B2 l o i n H). unfold at_least_as_good in *. lia.
          * destruct H as (x & [<- |[]] & _ & _ & -> & -> & -> & _). unfold at_least_as_good. lia.
        + exists b. split; [reflexivity|]. split; [|assumption]. unfold BI. rewrite EF. split; [left; exact B1|].
          intros l o i n [H|H].
          * apply (B2 l o i n H).
          * destruct H as (x & [<- |[]] & _ & _ & -> & -> & -> & _). unfold at_least_as_good. lia.
      - exists nb. split; [reflexivity|]. split; [|reflexivity]. unfold BI. cbn [b_found b_len b_ord b_if nb]. split; [right; exact HSr|].
        intros l o i n [H|H].
        * exfalso. eapply HB; exact H.
        * destruct H as (x & [<- |[]] & _ & _ & -> & -> & -> & _). unfold at_least_as_good. lia. }
    destruct HX as (b' & -> & HB' & HF').
    destruct (IH D' b' HR2 HB') as [I1 I2]. split.
    + assert (EQV : forall l o i n, D' l o i n \/ statics rs dest l o i n <-> D l o i n \/ statics (r :: rs) dest l o i n).
      { intros l o i n. unfold D'. split.
        - intros [[H|H]|H]; [left; assumption| |].
          + destruct H as (x & [<- |[]] & REST). right. exists r. split; [left; reflexivity|assumption].
          + destruct H as (x & Hin & REST). right. exists x. split; [right; assumption|assumption].
        - intros [H|H]; [left; left; assumption|]. destruct H as (x & [<- |Hin] & REST).
          + left. right. exists r. split; [left; reflexivity|assumption].
          + right. exists x. auto. }
      unfold BI in *. destruct (b_found (lookup_static rs dest b')).
      * destruct I1 as [B1 B2]. split; [apply EQV; exact B1|]. intros l o i n H. apply EQV in H. eapply B2; exact H.
      * intros l o i n H. apply EQV in H. eapply I1; exact H.
    + intros F. specialize (I2 F). rewrite I2 in F. congruence.
Qed.

(** Broadcast addresses: all ones, or the directed broadcast of a configured subnet. *)
Definition is_bcast (cs : list ipconf) (a : Z) : Prop := ip_is_broadcast cs a = true.

Definition usable (c : ipconf) : Prop := c_ip c <> 0 \/ c_gw c <> 0.
Lemma fallback_spec lb all : forall cs k gw nl, skipn (Z.to_nat k) all = cs -> 0 <= k ->
  (match gw with Some g => 0 <= g < k /\ is_loopback_if lb g = false /\ c_gw (conf_at all g) <> 0 /\ (Z.to_nat g < length all)%nat /\ (forall j, 0 <= j < g -> is_loopback_if lb j = false -> c_gw (conf_at all j) = 0)
   | None => forall j, 0 <= j < k -> is_loopback_if lb j = false -> c_gw (conf_at all j) = 0 end) ->
  (match nl with Some g => 0 <= g < k /\ is_loopback_if lb g = false /\ usable (conf_at all g) /\ (forall j, 0 <= j < g -> is_loopback_if lb j = false -> ~ usable (conf_at all j))
   | None => forall j, 0 <= j < k -> is_loopback_if lb j = false -> ~ usable (conf_at all j) end) ->
  (match fst (lookup_fallback lb cs k gw nl) with Some g => 0 <= g < zlen all /\ is_loopback_if lb g = false /\ c_gw (conf_at all g) <> 0 /\ (forall j, 0 <= j < g -> is_loopback_if lb j = false -> c_gw (conf_at all j) = 0)
   | None => forall j, 0 <= j < zlen all -> is_loopback_if lb j = false -> c_gw (conf_at all j) = 0 end) /\
  (match snd (lookup_fallback lb cs k gw nl) with Some g => is_loopback_if lb g = false /\ 0 <= g < zlen all /\ usable (conf_at all g) /\ (forall j, 0 <= j < g -> is_loopback_if lb j = false -> ~ usable (conf_at all j))
   | None => forall j, 0 <= j < zlen all -> is_loopback_if lb j = false -> ~ usable (conf_at all j) end).
Proof.
  induction cs as [|c cs IH]; intros k gw nl HS Hk HG HN; cbn [lookup_fallback].
  - assert (HL : zlen all <= k).
    { assert (L : length (skipn (Z.to_nat k) all) = 0%nat) by (rewrite HS; reflexivity). rewrite skipn_length in L. unfold zlen. lia. }
    assert (OUT : forall j, zlen all <= j -> conf_at all j = conf0).
    { intros j Hj. unfold conf_at. apply nth_overflow. unfold zlen in Hj. lia. }
    cbn [fst snd]. split.
    + destruct gw as [g|].
      * destruct HG as (G1 & G2 & G3 & G4 & G5). split; [unfold zlen; lia|]. auto.
      * intros j Hj. apply HG. lia.
    + destruct nl as [g|].
      * destruct HN as (G1 & G2 & G3 & G4). split; [assumption|]. split; [|auto].
        destruct (Z.lt_ge_cases g (zlen all)); [lia|]. rewrite OUT in G3 by lia. destruct G3; cbn in *; congruence.
      * intros j Hj. apply HN. lia.
  - assert (HL : (Z.to_nat k < length all)%nat).
    { assert (L : length (skipn (Z.to_nat k) all) = S (length cs)) by (rewrite HS; reflexivity). rewrite skipn_length in L. lia. }
    assert (HC : conf_at all k = c).
    { unfold conf_at. rewrite <- (firstn_skipn (Z.to_nat k) all), HS. rewrite app_nth2; rewrite firstn_length; [|lia].
      replace (Z.to_nat k - Nat.min (Z.to_nat k) (length all))%nat with 0%nat by lia. reflexivity. }
    assert (HS' : skipn (Z.to_nat (k + 1)) all = cs).
    { replace (Z.to_nat (k + 1)) with (1 + Z.to_nat k)%nat by lia. rewrite <- skipn_skipn, HS. reflexivity. }
    assert (SPLIT : forall (P : Z -> Prop), (forall j, 0 <= j < k -> P j) -> P k -> forall j, 0 <= j < k + 1 -> P j).
    { intros P H1 H2 j Hj. destruct (Z.eq_dec j k) as [-> |]; [assumption|apply H1; lia]. }
    destruct ((c_ip c =? 0) && (c_gw c =? 0)) eqn:E0.
    + apply IH; [assumption|lia| |].
      * destruct gw as [g|].
        -- destruct HG as (G1 & G2). split; [lia|assumption].
        -- apply (SPLIT (fun j => is_loopback_if lb j = false -> c_gw (conf_at all j) = 0)); [exact HG|]. intros _. rewrite HC. lia.
      * destruct nl as [g|].
        -- destruct HN as (G1 & G2). split; [lia|assumption].
        -- apply (SPLIT (fun j => is_loopback_if lb j = false -> ~ usable (conf_at all j))); [exact HN|]. intros _ [U|U]; rewrite HC in U; lia.
    + apply IH; [assumption|lia| |].
      * destruct gw as [g|].
        -- destruct HG as (G1 & G2). split; [lia|assumption].
        -- destruct (negb (is_loopback_if lb k) && negb (c_gw c =? 0)) eqn:E1.
           ++ split; [lia|]. split; [destruct (is_loopback_if lb k); [discriminate|reflexivity]|]. split; [rewrite HC; lia|].
              split; [assumption|exact HG].
           ++ apply (SPLIT (fun j => is_loopback_if lb j = false -> c_gw (conf_at all j) = 0)); [exact HG|]. intros NL. rewrite HC. rewrite NL in E1. cbn [negb andb] in E1. lia.
      * destruct nl as [g|].
        -- destruct HN as (G1 & G2). split; [lia|assumption].
        -- destruct (is_loopback_if lb k) eqn:E1.
           ++ apply (SPLIT (fun j => is_loopback_if lb j = false -> ~ usable (conf_at all j))); [exact HN|]. intros NL. congruence.
           ++ split; [lia|]. split; [assumption|]. split; [rewrite HC; unfold usable; lia|]. exact HN.
Qed.

(** Route lookup, all cases. *)
Theorem route_lookup_longest_prefix lb cs rs dest :
  cs <> [] -> Forall conf_ok cs -> Forall (route_ok (zlen cs)) rs -> addr32 dest ->
  exists ifx nh, route_lookup lb cs rs dest = Some (ifx, nh) /\ 0 <= ifx < zlen cs /\
  ( (* unspecified or broadcast: primary interface, directly *)
    ((dest = 0 \/ is_bcast cs dest) /\ ifx = primary_if lb cs /\ nh = dest) \/
    (dest <> 0 /\ ~ is_bcast cs dest /\
     ((* own address: self delivery *)
      (c_ip (conf_at cs ifx) = dest /\ nh = dest /\ forall j, 0 <= j < ifx -> c_ip (conf_at cs j) <> dest) \/
      ((forall c, In c cs -> c_ip c <> dest) /\
       ((* best candidate *)
        (exists len ord, candidate cs rs dest len ord ifx nh /\
           forall len' ord' ifx' nh', candidate cs rs dest len' ord' ifx' nh' -> at_least_as_good len ord ifx len' ord' ifx') \/
        ((forall len ord i n, ~ candidate cs rs dest len ord i n) /\
         ((* default gateway of the first interface that has one *)
          (is_loopback_if lb ifx = false /\ c_gw (conf_at cs ifx) <> 0 /\ nh = c_gw (conf_at cs ifx) /\
             forall j, 0 <= j < ifx -> is_loopback_if lb j = false -> c_gw (conf_at cs j) = 0) \/
          ((* no gateway anywhere: send directly *)
           nh = dest /\ (forall j, 0 <= j < zlen cs -> is_loopback_if lb j = false -> c_gw (conf_at cs j) = 0))))))))).
Proof.
  intros Hne HC HR Hd. unfold route_lookup.
  assert (HL : 0 < zlen cs) by (destruct cs; [contradiction|rewrite zlen_cons; pose proof (zlen_nonneg cs); lia]).
  destruct (zlen cs =? 0) eqn:E0; [lia|].
  assert (HP : 0 <= primary_if lb cs < zlen cs).
  { unfold primary_if. destruct lb; cbn [Z.ltb]; destruct (_ <? zlen cs) eqn:Q; lia. }
  destruct ((dest =? 0) || ip_is_broadcast cs dest) eqn:E1.
  { eexists _, _. split; [reflexivity|]. split; [exact HP|]. left. split; [|auto].
    apply orb_true_iff in E1 as [E1|E1]; [left; lia|right; exact E1]. }
  apply orb_false_iff in E1 as [E1 E2]. apply Z.eqb_neq in E1.
  assert (NB : ~ is_bcast cs dest) by (unfold is_bcast; congruence).
  set (b0 := {| b_if := primary_if lb cs; b_nh := dest; b_len := 0; b_ord := 4294967295; b_found := false |}).
  pose proof (lookup_conn_spec cs dest HC Hd E1 cs 0 b0 eq_refl ltac:(lia) ltac:(lia) ltac:(intros; lia)) as LC.
  assert (HB0 : BI cs dest (conn_upto cs dest 0) b0).
  { unfold BI. cbn. intros l o i n (_ & _ & c & _ & R & _). lia. }
  specialize (LC HB0).
  assert (CA : forall i c, 0 <= i -> nth_error cs (Z.to_nat i) = Some c -> conf_at cs i = c /\ i < zlen cs).
  { intros i c Hi N. split; [unfold conf_at; apply nth_error_nth; assumption|].
    assert (Z.to_nat i < length cs)%nat by (apply nth_error_Some; congruence). unfold zlen. lia. }
  assert (CA2 : forall j, 0 <= j < zlen cs -> nth_error cs (Z.to_nat j) = Some (conf_at cs j)).
  { intros j Hj. unfold conf_at. apply nth_error_nth'. unfold zlen in *. lia. }
  destruct (lookup_conn cs 0 dest b0) as [i|b].
  - destruct LC as (Hi & (c & N & EC) & HF). destruct (CA i c Hi N) as [EC2 Hlt].
    eexists _, _. split; [reflexivity|]. split; [lia|]. right. split; [assumption|]. split; [assumption|]. left.
    split; [congruence|]. split; [reflexivity|]. intros j Hj. eapply HF; [apply CA2; lia|lia].
  - destruct LC as (HNS & HB & HBF).
    destruct (lookup_static_spec cs (zlen cs) dest Hd rs _ b HR HB) as [HS1 HS2].
    set (b2 := lookup_static rs dest b) in *.
    assert (EQV : forall l o i n, candidate cs rs dest l o i n <-> conn_upto cs dest (zlen cs) l o i n \/ statics rs dest l o i n).
    { intros l o i n. split.
      - intros H. destruct H as [i c len N Hi Hip Hlen HM HSP|r Hin HU HSP].
        + left. split; [reflexivity|]. split; [reflexivity|]. exists c. split; [assumption|].
          destruct (CA i c Hi N). split; [lia|]. auto.
        + right. exists r. repeat (split; [assumption || reflexivity|]). reflexivity.
      - intros [(-> & -> & c & N & R & Hip & Hlen & HM & HSP)|(r & Hin & HU & HSP & -> & -> & -> & ->)].
        + eapply cand_conn; try eassumption. lia.
        + apply cand_static; assumption. }
    unfold BI in HS1. destruct (b_found b2) eqn:EF.
    + destruct HS1 as [B1 B2]. eexists _, _. split; [reflexivity|]. apply EQV in B1.
      assert (HIF : 0 <= b_if b2 < zlen cs).
      { apply EQV in B1. destruct B1 as [(_ & _ & c & N & R & _)|(r & Hin & HU & _ & _ & _ & -> & _)]; [lia|].
        rewrite Forall_forall in HR. destruct (HR r Hin HU) as (_ & _ & _ & _ & G). lia. }
      split; [exact HIF|]. right. split; [assumption|]. split; [assumption|]. right. split; [exact HNS|]. left.
      exists (b_len b2), (b_ord b2). split; [exact B1|]. intros l o i n H. apply EQV in H. eapply B2; exact H.
    + assert (E2b : b2 = b) by (apply HS2; reflexivity). rewrite E2b in EF. assert (Eb : b = b0) by (apply HBF; exact EF).
      rewrite E2b, Eb.
      assert (NC : forall len ord i n, ~ candidate cs rs dest len ord i n).
      { intros l o i n H. apply EQV in H. eapply HS1; exact H. }
      destruct (fallback_spec lb cs cs 0 None None eq_refl ltac:(lia)) as [F1 F2]; [intros j Hj; lia|intros j Hj; lia|].
      destruct (lookup_fallback lb cs 0 None None) as [[g|] nl]; cbn [fst snd] in *.
      * destruct F1 as (G1 & G2 & G3 & G4). eexists _, _. split; [reflexivity|]. split; [lia|]. right. split; [assumption|]. split; [assumption|].
        right. split; [exact HNS|]. right. split; [exact NC|]. left. split; [assumption|]. split; [assumption|].
        split; [|assumption]. destruct (c_gw (conf_at cs g) =? 0) eqn:Q; [lia|reflexivity].
      * destruct nl as [n|].
        -- destruct F2 as (G1 & G2 & G3 & G4). eexists _, _. split; [reflexivity|]. split; [lia|]. right. split; [assumption|]. split; [assumption|].
           right. split; [exact HNS|]. right. split; [exact NC|]. right. split; [reflexivity|]. exact F1.
        -- eexists _, _. split; [reflexivity|]. split; [exact HP|]. right. split; [assumption|]. split; [assumption|].
           right. split; [exact HNS|]. right. split; [exact NC|]. right. split; [reflexivity|]. exact F1.
Qed.

(** Ties between a connected subnet and a static route of the same length: the
    connected subnet wins -- except against the very first route ever added (age
    0) when that route points at a lower-numbered interface. *)
Theorem route_tie_prefers_connected_partial lb cs rs dest ifx nh len i :
  cs <> [] -> Forall conf_ok cs -> Forall (route_ok (zlen cs)) rs -> addr32 dest -> dest <> 0 ->
  ~ is_bcast cs dest -> (forall c, In c cs -> c_ip c <> dest) ->
  (forall r, In r rs -> r_used r = true -> 0 < r_order r) ->
  (* a connected subnet of length len, and no longer match *)
  candidate cs rs dest len 0 i dest ->
  (forall len' ord' ifx' nh', candidate cs rs dest len' ord' ifx' nh' -> len' <= len) ->
  route_lookup lb cs rs dest = Some (ifx, nh) -> nh = dest /\ candidate cs rs dest len 0 ifx dest.
Proof.
  intros Hne HC HR Hd Hd0 NB NS HO HCand HMax HL.
  destruct (route_lookup_longest_prefix lb cs rs dest Hne HC HR Hd) as (ifx2 & nh2 & E & HI & D).
  rewrite HL in E. injection E as <- <-.
  destruct D as [[[D|D] _]|(_ & _ & [D|(_ & [D|[D _]])])]; try contradiction.
  - destruct D as (EC & _). exfalso. apply (NS (conf_at cs ifx)); [|assumption]. unfold conf_at. apply nth_In. unfold zlen in *. lia.
  - destruct D as (l & o & B1 & B2). specialize (B2 _ _ _ _ HCand). pose proof (HMax _ _ _ _ B1) as L1.
    unfold at_least_as_good in B2. inversion B1 as [k c l' N Hk Hip Hl HM HSP|r Hin HU HSP]; subst.
    + assert (l = len) by lia. subst. split; [reflexivity|assumption].
    + specialize (HO r Hin HU). lia.
  - exfalso. eapply D. exact HCand.
Qed.

(** The unrestricted tie-break claim is false of the code. *)
Definition ex_cs : list ipconf := [ {| c_ip := 3232235521; c_mask := 4294967040; c_gw := 0 |};   (* 192.168.0.1/24 *)
                                    {| c_ip := 167772161; c_mask := 4294967040; c_gw := 0 |} ].  (* 10.0.0.1/24 *)
Theorem route_tie_prefers_connected_refuted :
  exists rs gen, route_add 2 (repeat route0 16) 0 0 167772160 24 3232235777 = ((rs, gen), 0) /\
    candidate ex_cs rs 167772260 24 0 1 167772260 /\
    route_lookup false ex_cs rs 167772260 = Some (0, 3232235777).
Proof.
  eexists _, _. split; [reflexivity|]. split; [|reflexivity].
  eapply (cand_conn _ _ _ 1); [reflexivity|lia|cbn; lia|lia|reflexivity|reflexivity].
Qed.

(** Forwarding interface: never the incoming one, a configured subnet containing
    the destination, and never when the destination is an address of another interface
    seen before. *)
Theorem forward_interface_sound cs in_if dest i : forward_interface cs in_if dest = Some i ->
  i <> in_if /\ 0 <= i < zlen cs /\ c_ip (conf_at cs i) <> 0 /\ ip_is_local_conf (conf_at cs i) dest = true /\ dest <> c_ip (conf_at cs i).
Proof.
  unfold forward_interface. destruct (zlen cs <? 2); [discriminate|].
  assert (G : forall l k, skipn (Z.to_nat k) cs = l -> 0 <= k -> forward_if_loop l k in_if dest = Some i ->
     i <> in_if /\ 0 <= i < zlen cs /\ c_ip (conf_at cs i) <> 0 /\ ip_is_local_conf (conf_at cs i) dest = true /\ dest <> c_ip (conf_at cs i)).
  { induction l as [|c l IH]; intros k HS Hk H; cbn [forward_if_loop] in H; [discriminate|].
    assert (HL : (Z.to_nat k < length cs)%nat).
    { assert (L : length (skipn (Z.to_nat k) cs) = S (length l)) by (rewrite HS; reflexivity). rewrite skipn_length in L. lia. }
    assert (HC : conf_at cs k = c).
    { unfold conf_at. rewrite <- (firstn_skipn (Z.to_nat k) cs), HS. rewrite app_nth2; rewrite firstn_length; [|lia].
      replace (Z.to_nat k - Nat.min (Z.to_nat k) (length cs))%nat with 0%nat by lia. reflexivity. }
    assert (HS' : skipn (Z.to_nat (k + 1)) cs = l).
    { replace (Z.to_nat (k + 1)) with (1 + Z.to_nat k)%nat by lia. rewrite <- skipn_skipn, HS. reflexivity. }
    destruct (k =? in_if) eqn:E1; [apply (IH (k + 1) HS'); [lia|assumption]|].
    destruct (c_ip c =? 0) eqn:E2; [apply (IH (k + 1) HS'); [lia|assumption]|].
    destruct (dest =? c_ip c) eqn:E3; [discriminate|].
    destruct (ip_is_local_conf c dest) eqn:E4; [|apply (IH (k + 1) HS'); [lia|assumption]].
    injection H as <-. rewrite HC. apply Z.eqb_neq in E1, E2, E3. split; [assumption|]. split; [unfold zlen; lia|]. auto. }
  intros H. apply (G cs 0); [reflexivity|lia|assumption].
Qed.

(** ** C10: the table is a finite map *)
Record rentry := { e_if : Z; e_prefix : Z; e_len : Z; e_gw : Z }.
Definition is_key (ifx prefix len : Z) (e : rentry) : bool :=
  (e_if e =? ifx) && (e_prefix e =? prefix) && (e_len e =? len).
(** prefix with the host bits cleared *)
Definition masked (prefix len : Z) : Z := prefix / 2 ^ (32 - len) * 2 ^ (32 - len).
Inductive rop := RAdd (ifx prefix len gw : Z) | RDel (ifx prefix len : Z).
Definition rop_ok (o : rop) : Prop :=
  match o with RAdd i p l g => 0 <= i /\ addr32 p /\ 0 <= l < 256 /\ addr32 g | RDel i p l => 0 <= i /\ addr32 p /\ 0 <= l < 256 end.
(** Specification on a finite map given as a list with unique keys. *)
Definition map_step (nif cap : Z) (m : list rentry) (o : rop) : list rentry * Z :=
  match o with
  | RAdd i p l g =>
      if (nif <=? i) || (32 <? l) then (m, EINVAL)
      else if existsb (is_key i (masked p l) l) m
      then (map (fun e => if is_key i (masked p l) l e then {| e_if := i; e_prefix := masked p l; e_len := l; e_gw := g |} else e) m, 0)
      else if cap <=? zlen m then (m, ENOMEM)
      else ({| e_if := i; e_prefix := masked p l; e_len := l; e_gw := g |} :: m, 0)
  | RDel i p l =>
      if (nif <=? i) || (32 <? l) then (m, EINVAL)
      else if existsb (is_key i (masked p l) l) m then (filter (fun e => negb (is_key i (masked p l) l e)) m, 0)
      else (m, EINVAL)
  end.
Fixpoint map_run (nif cap : Z) (m : list rentry) (ops : list rop) : list rentry * list Z :=
  match ops with
  | [] => (m, [])
  | o :: ops => let '(m, r) := map_step nif cap m o in let '(m, rs) := map_run nif cap m ops in (m, r :: rs)
  end.
Definition tab_step (nif : Z) (s : list route * Z) (o : rop) : (list route * Z) * Z :=
  match o with
  | RAdd i p l g => route_add nif (fst s) (snd s) i p l g
  | RDel i p l => let '(t, r) := route_delete nif (fst s) i p l in ((t, snd s), r)
  end.
Fixpoint tab_run (nif : Z) (s : list route * Z) (ops : list rop) : (list route * Z) * list Z :=
  match ops with
  | [] => (s, [])
  | o :: ops => let '(s, r) := tab_step nif s o in let '(s, rs) := tab_run nif s ops in (s, r :: rs)
  end.

Definition entry_of (r : route) : rentry := {| e_if := r_if r; e_prefix := r_prefix r; e_len := r_len r; e_gw := r_gw r |}.
Definition live_entries (rs : list route) : list rentry := map entry_of (filter r_used rs).

Lemma masked_land p l : addr32 p -> 0 <= l <= 32 -> Z.land p (prefix_mask l) = masked p l.
Proof. intros Hp Hl. rewrite prefix_mask_netmask by assumption. unfold netmask, masked. apply land_netmask; [lia|assumption]. Qed.
Lemma masked_range p l : addr32 p -> 0 <= l <= 32 -> addr32 (masked p l).
Proof.
  intros Hp Hl. unfold masked, addr32 in *. pose proof (Z.pow_pos_nonneg 2 (32 - l) ltac:(lia) ltac:(lia)).
  pose proof (Z.div_pos p (2 ^ (32 - l))). pose proof (Z.mul_div_le p (2 ^ (32 - l))). nia.
Qed.

Lemma key_eq r i p l : route_key_eq r i p l = is_key i p l (entry_of r).
Proof. unfold route_key_eq, is_key, entry_of. cbn. destruct (r_if r =? i), (r_len r =? l), (r_prefix r =? p); reflexivity. Qed.

Definition keys (m : list rentry) : list (Z * Z * Z) := map (fun e => (e_if e, e_prefix e, e_len e)) m.
Lemma is_key_true i p l e : is_key i p l e = true <-> (e_if e, e_prefix e, e_len e) = (i, p, l).
Proof.
  unfold is_key. rewrite !andb_true_iff, !Z.eqb_eq. split.
  - intros [[-> ->] ->]. reflexivity.
  - intros E. injection E as -> -> ->. auto.
Qed.
Lemma nokey_map i p l (m : list rentry) f : existsb (is_key i p l) m = false ->
  map (fun e => if is_key i p l e then f else e) m = m.
Proof.
  induction m as [|e m IH]; cbn; intros H; [reflexivity|]. apply orb_false_iff in H as [H1 H2]. rewrite H1. f_equal. auto.
Qed.
Lemma nokey_filter i p l (m : list rentry) : existsb (is_key i p l) m = false ->
  filter (fun e => negb (is_key i p l e)) m = m.
Proof.
  induction m as [|e m IH]; cbn; intros H; [reflexivity|]. apply orb_false_iff in H as [H1 H2]. rewrite H1. cbn. f_equal. auto.
Qed.
Lemma nodup_nokey i p l e m : is_key i p l e = true -> NoDup (keys (e :: m)) -> existsb (is_key i p l) m = false.
Proof.
  intros HK ND. inversion ND as [|? ? HN ND2]; subst. apply not_true_is_false. intros HE. apply existsb_exists in HE as (x & Hin & Hx).
  apply HN. apply is_key_true in HK. apply is_key_true in Hx. unfold keys. apply in_map_iff. exists x. split; [congruence|assumption].
Qed.

Lemma add_scan_spec i p l g : forall rs, NoDup (keys (live_entries rs)) ->
  match add_scan rs i p l g with
  | Some rs' => existsb (is_key i p l) (live_entries rs) = true /\ length rs' = length rs /\
      live_entries rs' = map (fun e => if is_key i p l e then {| e_if := i; e_prefix := p; e_len := l; e_gw := g |} else e) (live_entries rs) /\
      map r_order (filter r_used rs') = map r_order (filter r_used rs)
  | None => existsb (is_key i p l) (live_entries rs) = false
  end.
Proof.
  induction rs as [|r rs IH]; intros ND; [reflexivity|].
  cbn [add_scan]. unfold live_entries in *. cbn [filter] in *.
  destruct (r_used r) eqn:EU; cbn [negb].
  - cbn [map] in *. rewrite key_eq. destruct (is_key i p l (entry_of r)) eqn:EK.
    + pose proof (nodup_nokey i p l _ _ EK ND) as NK. cbn [existsb]. rewrite EK. split; [reflexivity|]. split; [reflexivity|].
      cbn [filter r_used map]. rewrite ?EK. rewrite nokey_map by assumption. split; [|reflexivity]. f_equal.
      unfold entry_of; cbn. apply is_key_true in EK. cbn in EK. injection EK as <- <- <-. reflexivity.
    + cbn [existsb]. rewrite EK. cbn [orb]. inversion ND as [|? ? HN ND2]; subst. specialize (IH ND2).
      destruct (add_scan rs i p l g) as [rs'|]; cbn [option_map].
      * destruct IH as (I1 & I2 & I3 & I4). split; [assumption|]. split; [cbn; lia|]. cbn [filter map]. rewrite EU. cbn [map].
        rewrite ?EK, I3, I4. auto.
      * assumption.
  - specialize (IH ND). destruct (add_scan rs i p l g) as [rs'|]; cbn [option_map].
    + destruct IH as (I1 & I2 & I3 & I4). split; [assumption|]. split; [cbn; lia|]. cbn [filter]. rewrite EU. auto.
    + assumption.
Qed.
Lemma add_free_spec new : r_used new = true -> forall rs,
  match add_free rs new with
  | Some rs' => zlen (live_entries rs) < zlen rs /\ length rs' = length rs /\ Permutation (filter r_used rs') (new :: filter r_used rs)
  | None => zlen (live_entries rs) = zlen rs
  end.
Proof.
  intros HU. induction rs as [|r rs IH]; [reflexivity|]. cbn [add_free]. unfold live_entries in *. cbn [filter].
  assert (LE : zlen (map entry_of (filter r_used rs)) <= zlen rs).
  { unfold zlen. rewrite map_length. clear. induction rs as [|r rs IH]; cbn; [lia|]. destruct (r_used r); cbn; lia. }
  destruct (r_used r) eqn:EU; cbn [negb map].
  - destruct (add_free rs new) as [rs'|]; cbn [option_map].
    + destruct IH as (I1 & I2 & I3). rewrite !zlen_cons. split; [lia|]. split; [cbn; lia|]. cbn [filter]. rewrite EU.
      eapply Permutation_trans; [apply perm_skip; exact I3|]. apply perm_swap.
    + rewrite !zlen_cons. lia.
  - rewrite zlen_cons. split; [lia|]. split; [reflexivity|]. cbn [filter]. rewrite HU. apply Permutation_refl.
Qed.
Lemma del_scan_spec i p l : forall rs, NoDup (keys (live_entries rs)) ->
  match del_scan rs i p l with
  | Some rs' => existsb (is_key i p l) (live_entries rs) = true /\ length rs' = length rs /\
      live_entries rs' = filter (fun e => negb (is_key i p l e)) (live_entries rs) /\
      (forall r, In r (filter r_used rs') -> In r (filter r_used rs))
  | None => existsb (is_key i p l) (live_entries rs) = false
  end.
Proof.
  induction rs as [|r rs IH]; intros ND; [reflexivity|].
  cbn [del_scan]. unfold live_entries in *. cbn [filter] in *.
  destruct (r_used r) eqn:EU; cbn [andb].
  - cbn [map] in *. rewrite key_eq. destruct (is_key i p l (entry_of r)) eqn:EK.
    + pose proof (nodup_nokey i p l _ _ EK ND) as NK. cbn [existsb filter map]. rewrite EK. cbn [negb]. split; [reflexivity|]. split; [reflexivity|].
      cbn [r_used route0]. rewrite nokey_filter by assumption. split; [reflexivity|]. intros x Hx. right. assumption.
    + cbn [existsb]. rewrite EK. cbn [orb]. inversion ND as [|? ? HN ND2]; subst. specialize (IH ND2).
      destruct (del_scan rs i p l) as [rs'|]; cbn [option_map].
      * destruct IH as (I1 & I2 & I3 & I4). split; [assumption|]. split; [cbn; lia|]. cbn [filter map]. rewrite EU. cbn [map filter].
        rewrite ?EK, I3. cbn [negb]. split; [reflexivity|]. intros x [<- |Hx]; [left; reflexivity|right; auto].
      * assumption.
  - specialize (IH ND). destruct (del_scan rs i p l) as [rs'|]; cbn [option_map].
    + destruct IH as (I1 & I2 & I3 & I4). split; [assumption|]. split; [cbn; lia|]. cbn [filter]. rewrite EU. auto.
    + assumption.
Qed.

Lemma existsb_perm {A} (f : A -> bool) l l' : Permutation l l' -> existsb f l = existsb f l'.
Proof.
  intros H. destruct (existsb f l) eqn:E, (existsb f l') eqn:E'; try reflexivity.
  - apply existsb_exists in E as (x & Hx & Fx). assert (existsb f l' = true) by (apply existsb_exists; exists x; split; [eapply Permutation_in; eassumption|assumption]). congruence.
  - apply existsb_exists in E' as (x & Hx & Fx). assert (existsb f l = true) by (apply existsb_exists; exists x; split; [eapply Permutation_in; [symmetry|]; eassumption|assumption]). congruence.
Qed.
Lemma filter_perm {A} (f : A -> bool) l l' : Permutation l l' -> Permutation (filter f l) (filter f l').
Proof.
  induction 1; cbn.
  - constructor.
  - destruct (f x); [apply perm_skip; assumption|assumption].
  - destruct (f x), (f y); try apply Permutation_refl. apply perm_swap.
  - eapply Permutation_trans; eassumption.
Qed.

Definition MI (nif cap : Z) (s : list route * Z) (m : list rentry) : Prop :=
  zlen (fst s) = cap /\ NoDup (keys (live_entries (fst s))) /\ Permutation (live_entries (fst s)) m /\
  Forall (route_ok nif) (fst s) /\
  (forall r, In r (filter r_used (fst s)) -> r_order r < snd s) /\ NoDup (map r_order (filter r_used (fst s))) /\ 0 <= snd s.

Lemma keys_nodup_perm m m' : Permutation m m' -> NoDup (keys m) -> NoDup (keys m').
Proof. intros P. apply Permutation_NoDup. apply Permutation_map. assumption. Qed.
Lemma keys_map_same i p l g m : keys (map (fun e => if is_key i p l e then {| e_if := i; e_prefix := p; e_len := l; e_gw := g |} else e) m) = keys m.
Proof.
  unfold keys. rewrite map_map. apply map_ext. intros e. destruct (is_key i p l e) eqn:E; [|reflexivity].
  apply is_key_true in E. cbn. congruence.
Qed.
Lemma nodup_keys_filter f m : NoDup (keys m) -> NoDup (keys (filter f m)).
Proof.
  unfold keys. induction m as [|e m IH]; cbn; intros H; [constructor|]. inversion H as [|? ? HN ND]; subst.
  destruct (f e); [|auto]. cbn. constructor; [|auto]. intros Hin. apply HN. apply in_map_iff in Hin as (x & E & Hx).
  apply in_map_iff. exists x. split; [assumption|]. apply filter_In in Hx. tauto.
Qed.

Lemma in_live r rs : In r rs -> r_used r = true -> In r (filter r_used rs).
Proof. intros. apply filter_In. auto. Qed.

Lemma tab_step_ok nif cap s m o : 0 < nif <= 256 -> MI nif cap s m -> rop_ok o -> snd s + 1 < 4294967295 ->
  snd (tab_step nif s o) = snd (map_step nif cap m o) /\ MI nif cap (fst (tab_step nif s o)) (fst (map_step nif cap m o)) /\
  snd (fst (tab_step nif s o)) <= snd s + 1.
Proof.
  intros Hnif (ML & MN & MP & MR & MO & MOD & MG) HO HG. destruct s as [rs gen]. cbn [fst snd] in *.
  destruct o as [i p l g|i p l]; cbn [tab_step map_step fst snd rop_ok] in *.
  - destruct HO as (Hi & Hp & Hl & Hgw). unfold route_add. destruct ((nif <=? i) || (32 <? l)) eqn:E0.
    { cbn [fst snd]. split; [reflexivity|]. split; [|lia]. repeat (split; [assumption|]). assumption. }
    apply orb_false_iff in E0 as [E0 E0']. rewrite masked_land by (assumption || lia).
    pose proof (add_scan_spec i (masked p l) l g rs MN) as AS. rewrite <- (existsb_perm _ _ _ MP).
    destruct (add_scan rs i (masked p l) l g) as [rs'|] eqn:EA.
    + destruct AS as (A1 & A2 & A3 & A4). rewrite A1. cbn [fst snd]. split; [reflexivity|]. split; [|lia].
      split; [cbn [fst]; unfold zlen in *; lia|]. split; [cbn [fst]; rewrite A3, keys_map_same; assumption|].
      split; [cbn [fst]; rewrite A3; apply Permutation_map; assumption|].
      assert (ORD : forall r, In r (filter r_used rs') -> In (r_order r) (map r_order (filter r_used rs))) by (intros r Hr; rewrite <- A4; apply in_map; assumption).
      split; [|split; [|split]]; cbn [fst snd].
      * apply Forall_forall. intros r Hr HU.
        assert (HE : In (entry_of r) (live_entries rs')) by (unfold live_entries; apply in_map, in_live; assumption).
        rewrite A3 in HE. apply in_map_iff in HE as (e & EQ & He).
        unfold live_entries in He. apply in_map_iff in He as (r0 & <- & Hr0). apply filter_In in Hr0 as [Hr0 HU0].
        rewrite Forall_forall in MR. pose proof (MR r0 Hr0 HU0) as (Q1 & Q2 & Q3 & Q4 & Q5).
        assert (QO : 0 <= r_order r < 4294967295).
        { specialize (ORD r (in_live _ _ Hr HU)). apply in_map_iff in ORD as (r1 & E1 & Hr1). apply filter_In in Hr1 as [Hr1 HU1].
          pose proof (MR r1 Hr1 HU1) as (_ & _ & _ & G & _). lia. }
        destruct (is_key i (masked p l) l (entry_of r0)) eqn:EK.
        -- unfold entry_of in EQ. injection EQ as <- <- <- <-. split; [lia|]. split; [apply masked_range; [assumption|lia]|]. split; [assumption|]. split; [assumption|lia].
        -- unfold entry_of in EQ. injection EQ as <- <- <- <-. auto.
      * intros r Hr. specialize (ORD r Hr). apply in_map_iff in ORD as (r1 & <- & Hr1). apply MO. assumption.
      * rewrite A4. assumption.
      * assumption.
    + rewrite AS. set (new := {| r_used := true; r_if := u8 i; r_len := l; r_prefix := masked p l; r_gw := g; r_order := gen |}).
      pose proof (add_free_spec new eq_refl rs) as AF.
      assert (LM : zlen m = zlen (live_entries rs)) by (unfold zlen; f_equal; symmetry; apply Permutation_length; assumption).
      destruct (add_free rs new) as [rs'|] eqn:EF.
      * destruct AF as (F1 & F2 & F3). destruct (cap <=? zlen m) eqn:EC; [lia|]. cbn [fst snd]. split; [reflexivity|].
        assert (EU : u8 i = i) by (unfold u8; apply Z.mod_small; lia).
        assert (EG : u32 (gen + 1) = gen + 1) by (unfold u32; apply Z.mod_small; lia). rewrite EG. split; [|lia].
        assert (PL : Permutation (live_entries rs') (entry_of new :: live_entries rs)) by (unfold live_entries; apply (Permutation_map entry_of) in F3; exact F3).
        split; [cbn [fst]; unfold zlen in *; lia|]. cbn [fst snd]. split.
        { eapply keys_nodup_perm; [symmetry; exact PL|]. unfold keys in *. cbn [map]. constructor; [|assumption].
          intros Hin. apply in_map_iff in Hin as (e & EQ & He). assert (existsb (is_key i (masked p l) l) (live_entries rs) = true).
          { apply existsb_exists. exists e. split; [assumption|]. apply is_key_true. rewrite EQ. cbn. rewrite EU. reflexivity. }
          congruence. }
        split.
        { eapply Permutation_trans; [exact PL|]. unfold entry_of at 1; cbn. rewrite EU. apply perm_skip. assumption. }
        split.
        { apply Forall_forall. intros r Hr HU. assert (Hin : In r (new :: filter r_used rs)) by (eapply Permutation_in; [exact F3|apply in_live; assumption]).
          destruct Hin as [<- |Hin].
          - cbn. rewrite EU. split; [lia|]. split; [apply masked_range; [assumption|lia]|]. split; [assumption|]. split; [lia|lia].
          - apply filter_In in Hin as [Hin _]. rewrite Forall_forall in MR. apply MR; assumption. }
        split.
        { intros r Hr. eapply Permutation_in in Hr; [|exact F3]. destruct Hr as [<- |Hr]; [cbn; lia|]. specialize (MO r Hr). lia. }
        split; [|lia]. eapply Permutation_NoDup; [apply Permutation_map; symmetry; exact F3|]. cbn. constructor; [|assumption].
        intros Hin. apply in_map_iff in Hin as (r & E & Hr). specialize (MO r Hr). lia.
      * destruct (cap <=? zlen m) eqn:EC; [|lia]. cbn [fst snd]. split; [reflexivity|]. split; [|lia]. repeat (split; [assumption|]). assumption.
  - destruct HO as (Hi & Hp & Hl). unfold route_delete. destruct ((nif <=? i) || (32 <? l)) eqn:E0.
    { cbn [fst snd]. split; [reflexivity|]. split; [|lia]. repeat (split; [assumption|]). assumption. }
    apply orb_false_iff in E0 as [E0 E0']. rewrite masked_land by (assumption || lia).
    pose proof (del_scan_spec i (masked p l) l rs MN) as DS. rewrite <- (existsb_perm _ _ _ MP).
    destruct (del_scan rs i (masked p l) l) as [rs'|] eqn:ED.
    + destruct DS as (D1 & D2 & D3 & D4). rewrite D1. cbn [fst snd]. split; [reflexivity|]. split; [|lia].
      split; [cbn [fst]; unfold zlen in *; lia|]. cbn [fst snd]. rewrite D3.
      split; [apply nodup_keys_filter; assumption|]. split; [apply filter_perm; assumption|].
      split; [|split; [|split]].
      * apply Forall_forall. intros r Hr HU. assert (Hin : In r (filter r_used rs)) by (apply D4, in_live; assumption).
        apply filter_In in Hin as [Hin _]. rewrite Forall_forall in MR. apply MR; assumption.
      * intros r Hr. apply MO. auto.
      * clear - ED MOD. revert rs' ED MOD. induction rs as [|r rs IH]; intros rs' ED MOD; cbn [del_scan] in ED; [discriminate|].
        assert (MOD' : NoDup (map r_order (filter r_used rs))) by (cbn [filter] in MOD; destruct (r_used r); [inversion MOD; assumption|assumption]).
        destruct (r_used r && route_key_eq r i (masked p l) l).
        -- injection ED as <-. cbn. assumption.
        -- destruct (del_scan rs i (masked p l) l) as [rs2|] eqn:E2; [|discriminate]. cbn in ED. injection ED as <-.
           specialize (IH rs2 eq_refl MOD'). cbn [filter] in *. destruct (r_used r); [|assumption]. cbn [map] in *.
           inversion MOD as [|? ? HN _]; subst. constructor; [|assumption]. intros Hin. apply HN.
           clear - E2 Hin. revert rs2 E2 Hin. induction rs as [|q rs IH]; intros rs2 E2 Hin; cbn [del_scan] in E2; [discriminate|].
           destruct (r_used q && route_key_eq q i (masked p l) l).
           ++ injection E2 as <-. cbn in Hin. cbn [filter]. destruct (r_used q); [right; assumption|assumption].
           ++ destruct (del_scan rs i (masked p l) l) as [rs3|]; [|discriminate]. cbn in E2. injection E2 as <-.
              cbn [filter] in *. destruct (r_used q); [|eapply IH; [reflexivity|assumption]].
              cbn in *. destruct Hin as [-> |Hin]; [left; reflexivity|right; eapply IH; [reflexivity|assumption]].
      * assumption.
    + rewrite DS. cbn [fst snd]. split; [reflexivity|]. split; [|lia]. repeat (split; [assumption|]). assumption.
Qed.

Lemma tab_run_ok nif cap : 0 < nif <= 256 -> forall ops s m, MI nif cap s m -> Forall rop_ok ops -> snd s + zlen ops < 4294967295 ->
  snd (tab_run nif s ops) = snd (map_run nif cap m ops) /\ MI nif cap (fst (tab_run nif s ops)) (fst (map_run nif cap m ops)).
Proof.
  intros Hnif. induction ops as [|o ops IH]; intros s m HM HO HG; [auto|].
  inversion HO as [|? ? HO1 HO2]; subst. rewrite zlen_cons in HG. pose proof (zlen_nonneg ops).
  destruct (tab_step_ok nif cap s m o Hnif HM HO1 ltac:(lia)) as (T1 & T2 & T3).
  cbn [tab_run map_run]. destruct (tab_step nif s o) as [s1 r1]. destruct (map_step nif cap m o) as [m1 q1]. cbn [fst snd] in *. subst r1.
  destruct (IH s1 m1 T2 HO2 ltac:(lia)) as [I1 I2].
  destruct (tab_run nif s1 ops) as [s2 r2]. destruct (map_run nif cap m1 ops) as [m2 q2]. cbn [fst snd] in *. subst. auto.
Qed.

Lemma route_get_spec : forall rs seen idx, seen <= idx ->
  route_get rs seen idx = nth_error (filter r_used rs) (Z.to_nat (idx - seen)).
Proof.
  induction rs as [|r rs IH]; intros seen idx H; cbn [route_get filter].
  - destruct (Z.to_nat (idx - seen)); reflexivity.
  - destruct (r_used r); cbn [negb]; [|apply IH; assumption].
    destruct (seen =? idx) eqn:E; cbn [negb].
    + apply Z.eqb_eq in E. subst. rewrite Z.sub_diag. reflexivity.
    + rewrite IH by lia. replace (Z.to_nat (idx - seen)) with (S (Z.to_nat (idx - (seen + 1)))) by lia. reflexivity.
Qed.

(** For every history of add/delete calls the results and the enumerated contents are those
    of the finite map; keys are unique; the count is the map's size. *)
Theorem route_table_is_finite_map nif ops : 0 < nif <= 256 -> Forall rop_ok ops -> zlen ops < 4294967295 ->
  let impl := tab_run nif (repeat route0 16, 0) ops in
  let spec := map_run nif 16 [] ops in
  snd impl = snd spec /\ NoDup (keys (fst spec)) /\
  route_count (fst (fst impl)) = zlen (fst spec) /\
  (exists l, Permutation l (fst spec) /\
     forall idx, 0 <= idx -> option_map entry_of (route_get (fst (fst impl)) 0 idx) = nth_error l (Z.to_nat idx)).
Proof.
  intros Hnif HO HG impl spec.
  assert (HM : MI nif 16 (repeat route0 16, 0) []).
  { split; [reflexivity|]. cbn. split; [constructor|]. split; [constructor|]. split.
    - repeat (apply Forall_cons; [intros H; discriminate|]). apply Forall_nil.
    - split; [intros r []|]. split; [constructor|lia]. }
  destruct (tab_run_ok nif 16 Hnif ops _ _ HM HO HG) as [T1 (M1 & M2 & M3 & _)]. fold impl spec in T1, M1, M2, M3.
  split; [assumption|]. split; [eapply keys_nodup_perm; eassumption|]. split.
  - unfold route_count, zlen. apply Permutation_length in M3. unfold live_entries in M3. rewrite map_length in M3. lia.
  - exists (live_entries (fst (fst impl))). split; [assumption|]. intros idx Hidx. rewrite route_get_spec by lia.
    rewrite Z.sub_0_r. unfold live_entries. rewrite nth_error_map. reflexivity.
Qed.

(** The table reached by any history satisfies the hypotheses of the lookup theorem. *)
Theorem route_table_lookup_ready nif ops : 0 < nif <= 256 -> Forall rop_ok ops -> zlen ops < 4294967295 ->
  let rs := fst (fst (tab_run nif (repeat route0 16, 0) ops)) in
  Forall (route_ok nif) rs /\ NoDup (map r_order (filter r_used rs)).
Proof.
  intros Hnif HO HG rs.
  assert (HM : MI nif 16 (repeat route0 16, 0) []).
  { split; [reflexivity|]. cbn. split; [constructor|]. split; [constructor|]. split.
    - repeat (apply Forall_cons; [intros H; discriminate|]). apply Forall_nil.
    - split; [intros r []|]. split; [constructor|lia]. }
  destruct (tab_run_ok nif 16 Hnif ops _ _ HM HO HG) as [_ (_ & _ & _ & M4 & _ & M6 & _)]. auto.
Qed.

Print Assumptions netmask_prefix_inverse.
Print Assumptions prefix_mask_length.
Print Assumptions prefix_match_exact.
Print Assumptions route_lookup_longest_prefix.
Print Assumptions route_tie_prefers_connected_partial.
Print Assumptions route_tie_prefers_connected_refuted.
Print Assumptions forward_interface_sound.
Print Assumptions route_table_is_finite_map.
Print Assumptions route_table_lookup_ready.

(** Non-vacuity. *)
Example ex_masks : mask_prefix_len 4294967040 = Some 24 /\ mask_prefix_len 4278190335 = None /\ prefix_mask 20 = 4294963200.
Proof. repeat split. Qed.
Example ex_table :
  let '(s, r) := tab_run 2 (repeat route0 16, 0) [RAdd 0 167837953 16 1; RAdd 1 167837954 24 2; RAdd 0 167837960 16 7; RDel 1 0 0; RAdd 5 0 0 0] in
  r = [0; 0; 0; EINVAL; EINVAL] /\ route_count (fst s) = 2 /\
  route_lookup false ex_cs (fst s) 167838105 = Some (1, 2).
Proof. repeat split. Qed.
