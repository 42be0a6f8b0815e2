(** C12: dotted-quad text. *)
From Verif Require Import Base Bits AddrText.

(** ** Specification *)
(** Decimal text of a byte without leading zeros. *)
Definition dec (x : Z) : list Z :=
  if x <? 10 then [x + 48] else if x <? 100 then [x / 10 + 48; x mod 10 + 48]
  else [x / 100 + 48; x / 10 mod 10 + 48; x mod 10 + 48].
Definition octet (ip : Z) (k : Z) : Z := ip / 2 ^ (8 * k) mod 256.
Definition dotted (ip : Z) : list Z :=
  dec (octet ip 3) ++ [46] ++ dec (octet ip 2) ++ [46] ++ dec (octet ip 1) ++ [46] ++ dec (octet ip 0).

(** ** Proofs *)
Lemma octet_range ip k : 0 <= octet ip k < 256.
Proof. unfold octet. lia. Qed.
Lemma dec_len x : 1 <= zlen (dec x) <= 3.
Proof. unfold dec. destruct (x <? 10); [cbn; lia|]. destruct (x <? 100); cbn; lia. Qed.

Lemma wr_app p q r c : q <> [] -> r = c :: tl q -> wr (p ++ q) (zlen p) c = Some ((p ++ [c]) ++ tl q).
Proof.
  intros Hq _. destruct q as [|a q]; [contradiction|]. unfold wr, mwrite. change (zlen [c]) with 1. rewrite zlen_app, (zlen_cons a).
  pose proof (zlen_nonneg p). pose proof (zlen_nonneg q).
  destruct ((0 <=? zlen p) && (zlen p + 1 <=? zlen p + (1 + zlen q))) eqn:E; [|lia]. f_equal.
  unfold zlen. rewrite Nat2Z.id. rewrite firstn_app, Nat.sub_diag, firstn_O, app_nil_r, firstn_all.
  replace (Z.to_nat (Z.of_nat (length p) + 1)) with (S (length p)) by lia.
  rewrite skipn_app. rewrite skipn_all2 by lia. replace (S (length p) - length p)%nat with 1%nat by lia.
  rewrite <- app_assoc. reflexivity.
Qed.
Lemma wr1 p q c : 1 <= zlen q -> exists q', wr (p ++ q) (zlen p) c = Some ((p ++ [c]) ++ q') /\ zlen q' = zlen q - 1.
Proof.
  intros H. assert (Hq : q <> []) by (intros ->; cbn in H; lia). exists (tl q). split; [apply (wr_app p q (c :: tl q) c Hq eq_refl)|].
  destruct q; [contradiction|]. cbn [tl]. rewrite zlen_cons. lia.
Qed.

Lemma land255 a : Z.land a 255 = a mod 256.
Proof. change 255 with (2 ^ 8 - 1). rewrite land_ones_mod by lia. reflexivity. Qed.

(** One iteration appends the decimal digits (and a dot). *)
Lemma iptoa_step m ip p q : 4 <= zlen q -> exists q',
  iptoa_loop (S m) ip (p ++ q) (zlen p) =
  (let t := dec (octet ip (Z.of_nat m)) ++ (if (0 <? Z.of_nat m) then [46] else []) in
   iptoa_loop m ip ((p ++ t) ++ q') (zlen (p ++ t))) /\
  zlen q' = zlen q - zlen (dec (octet ip (Z.of_nat m)) ++ (if (0 <? Z.of_nat m) then [46] else [])).
Proof.
  intros HQ. cbn [iptoa_loop]. rewrite shr by lia. rewrite land255. fold (octet ip (Z.of_nat m)).
  pose proof (octet_range ip (Z.of_nat m)) as HX. set (x := octet ip (Z.of_nat m)) in *. clearbody x.
  assert (HD : exists q1, (do (buf, j) <- (if 99 <? x then do b <- wr (p ++ q) (zlen p) (x / 100 + 48); Some (b, zlen p + 1) else Some (p ++ q, zlen p));
      do (buf, j) <- (if 9 <? x then do b <- wr buf j ((x / 10) mod 10 + 48); Some (b, j + 1) else Some (buf, j));
      do buf <- wr buf j (x mod 10 + 48); Some (buf, j + 1)) = Some ((p ++ dec x) ++ q1, zlen (p ++ dec x)) /\ zlen q1 = zlen q - zlen (dec x)).
  { unfold dec. destruct (99 <? x) eqn:E1.
    - destruct (x <? 10) eqn:F1; [lia|]. destruct (x <? 100) eqn:F2; [lia|].
      destruct (wr1 p q (x / 100 + 48)) as (q1 & W1 & L1); [lia|]. rewrite W1. cbn [obind].
      destruct (9 <? x) eqn:E2; [|lia].
      destruct (wr1 (p ++ [x / 100 + 48]) q1 (x / 10 mod 10 + 48)) as (q2 & W2 & L2); [lia|].
      replace (zlen p + 1) with (zlen (p ++ [x / 100 + 48])) by (rewrite zlen_app; reflexivity). rewrite W2. cbn [obind].
      destruct (wr1 ((p ++ [x / 100 + 48]) ++ [x / 10 mod 10 + 48]) q2 (x mod 10 + 48)) as (q3 & W3 & L3); [lia|].
      replace (zlen (p ++ [x / 100 + 48]) + 1) with (zlen ((p ++ [x / 100 + 48]) ++ [x / 10 mod 10 + 48])) by (rewrite !zlen_app; reflexivity).
      rewrite W3. cbn [obind]. exists q3. split.
      + f_equal. f_equal; [rewrite <- !app_assoc; reflexivity|]. rewrite !zlen_app. cbn. lia.
      + cbn. lia.
    - cbn [obind]. destruct (9 <? x) eqn:E2.
      + destruct (x <? 10) eqn:F1; [lia|]. destruct (x <? 100) eqn:F2; [|lia].
        assert (EX : x / 10 mod 10 = x / 10) by lia. rewrite EX.
        destruct (wr1 p q (x / 10 + 48)) as (q2 & W2 & L2); [lia|]. rewrite W2. cbn [obind].
        destruct (wr1 (p ++ [x / 10 + 48]) q2 (x mod 10 + 48)) as (q3 & W3 & L3); [lia|].
        replace (zlen p + 1) with (zlen (p ++ [x / 10 + 48])) by (rewrite zlen_app; reflexivity). rewrite W3. cbn [obind].
        exists q3. split.
        * f_equal. f_equal; [rewrite <- !app_assoc; reflexivity|]. rewrite !zlen_app. cbn. lia.
        * cbn. lia.
      + destruct (x <? 10) eqn:F1; [|lia]. cbn [obind]. assert (EX : x mod 10 = x) by lia. rewrite EX.
        destruct (wr1 p q (x + 48)) as (q3 & W3 & L3); [lia|]. rewrite W3. cbn [obind]. exists q3. split.
        * f_equal. f_equal. rewrite !zlen_app. cbn. lia.
        * cbn. lia. }
  destruct HD as (q1 & HD & L1). pose proof (dec_len x) as LD.
  match goal with |- exists q', ?lhs = _ /\ _ =>
    assert (E : lhs = (do (buf, j) <- (do (buf, j) <- (if 99 <? x then do b <- wr (p ++ q) (zlen p) (x / 100 + 48); Some (b, zlen p + 1) else Some (p ++ q, zlen p));
      do (buf, j) <- (if 9 <? x then do b <- wr buf j ((x / 10) mod 10 + 48); Some (b, j + 1) else Some (buf, j));
      do buf <- wr buf j (x mod 10 + 48); Some (buf, j + 1));
      do (buf, j) <- (if (0 <? Z.of_nat m) then do b <- wr buf j 46; Some (b, j + 1) else Some (buf, j)); iptoa_loop m ip buf j)) end.
  { destruct (if 99 <? x then _ else _) as [[b j]|]; [|reflexivity]. cbn [obind].
    destruct (if 9 <? x then _ else _) as [[b1 j1]|]; [|reflexivity]. cbn [obind].
    destruct (wr b1 j1 (x mod 10 + 48)); reflexivity. }
  rewrite E, HD. cbn [obind]. destruct (0 <? Z.of_nat m) eqn:EM.
  - destruct (wr1 (p ++ dec x) q1 46) as (q2 & W2 & L2); [lia|]. rewrite W2. cbn [obind]. exists q2. split.
    + cbv zeta. f_equal; [rewrite <- !app_assoc; reflexivity|]. rewrite !zlen_app. cbn. lia.
    + rewrite zlen_app. cbn. lia.
  - cbn [obind]. exists q1. rewrite app_nil_r. split; [reflexivity|assumption].
Qed.

Lemma iptoa_text ip buf : 16 <= zlen buf -> exists rest, iptoa ip buf = Some (dotted ip ++ [0] ++ rest) /\ zlen (dotted ip ++ [0] ++ rest) = zlen buf.
Proof.
  intros HB. unfold iptoa. destruct (wr1 [] buf 0) as (q0 & W0 & L0); [lia|]. cbn [app] in W0. change (zlen []) with 0 in W0. rewrite W0. cbn [obind].
  pose proof (dec_len (octet ip 3)) as D3. pose proof (dec_len (octet ip 2)) as D2. pose proof (dec_len (octet ip 1)) as D1. pose proof (dec_len (octet ip 0)) as D0.
  set (b0 := 0 :: q0). assert (L : zlen b0 = zlen buf) by (subst b0; rewrite zlen_cons; lia).
  destruct (iptoa_step 3 ip [] b0 ltac:(lia)) as (q3 & E3 & L3). cbn [app] in E3. change (zlen []) with 0 in E3.
  change ([0] ++ q0) with b0. rewrite E3. clear E3. change (Z.of_nat 3) with 3 in *. change (0 <? 3) with true in *. cbv zeta iota. rewrite zlen_app in L3. change (zlen [46]) with 1 in L3.
  set (t3 := dec (octet ip 3) ++ [46]). destruct (iptoa_step 2 ip t3 q3 ltac:(lia)) as (q2 & E2 & L2). rewrite E2. clear E2.
  change (Z.of_nat 2) with 2 in *. change (0 <? 2) with true in *. cbv zeta iota. rewrite zlen_app in L2. change (zlen [46]) with 1 in L2.
  set (t2 := t3 ++ dec (octet ip 2) ++ [46]). destruct (iptoa_step 1 ip t2 q2 ltac:(lia)) as (q1 & E1 & L1). rewrite E1. clear E1.
  change (Z.of_nat 1) with 1 in *. change (0 <? 1) with true in *. cbv zeta iota. rewrite zlen_app in L1. change (zlen [46]) with 1 in L1.
  set (t1 := t2 ++ dec (octet ip 1) ++ [46]). destruct (iptoa_step 0 ip t1 q1 ltac:(lia)) as (qq & E0 & LL). rewrite E0. clear E0.
  change (Z.of_nat 0) with 0 in *. change (0 <? 0) with false in *. cbv zeta iota. rewrite app_nil_r in *.
  cbn [iptoa_loop]. destruct (wr1 (t1 ++ dec (octet ip 0)) qq 0 ltac:(lia)) as (rest & W & LR). rewrite W. exists rest.
  assert (EQ : dotted ip = t1 ++ dec (octet ip 0)) by (unfold dotted; subst t1 t2 t3; rewrite <- !app_assoc; reflexivity).
  rewrite EQ. split; [f_equal; rewrite <- !app_assoc; reflexivity|].
  rewrite !zlen_app. subst t1 t2 t3. rewrite !zlen_app. change (zlen [46]) with 1. change (zlen [0]) with 1. lia.
Qed.

Definition nondigit (c : Z) : Prop := c < 48 \/ 57 < c.
Lemma atou_dec x c rest : 0 <= x < 256 -> nondigit c -> atou (dec x ++ c :: rest) 0 = Some x.
Proof.
  intros Hx Hc. assert (HC : (48 <=? c) && (c <=? 57) = false) by (unfold nondigit in Hc; lia).
  assert (DIG : forall d s r, 0 <= d <= 9 -> atou ((d + 48) :: s) r = atou s (u32 (u32 (r * 10) + d))).
  { intros d s r Hd. cbn [atou]. destruct ((48 <=? d + 48) && (d + 48 <=? 57)) eqn:E; [|lia]. do 3 f_equal. lia. }
  unfold dec. destruct (x <? 10) eqn:E1.
  - cbn [app]. rewrite DIG by lia. cbn [atou]. rewrite HC. f_equal. unfold u32. lia.
  - destruct (x <? 100) eqn:E2.
    + cbn [app]. rewrite DIG by lia. rewrite DIG by lia. cbn [atou]. rewrite HC. f_equal. unfold u32. lia.
    + cbn [app]. rewrite DIG by lia. rewrite DIG by lia. rewrite DIG by lia. cbn [atou]. rewrite HC. f_equal. unfold u32. lia.
Qed.
Lemma skip_dec x c rest : 0 <= x < 256 -> (c = 46 \/ c = 0) -> skip_octet (dec x ++ c :: rest) = Some (c :: rest).
Proof.
  intros Hx Hc. assert (DIG : forall d s, 0 <= d <= 9 -> skip_octet ((d + 48) :: s) = skip_octet s).
  { intros d s Hd. cbn [skip_octet]. destruct ((d + 48 =? 46) || (d + 48 =? 0)) eqn:E; [lia|reflexivity]. }
  assert (END : skip_octet (c :: rest) = Some (c :: rest)).
  { cbn [skip_octet]. destruct ((c =? 46) || (c =? 0)) eqn:E; [reflexivity|lia]. }
  unfold dec. destruct (x <? 10) eqn:E1; [cbn [app]; rewrite DIG by lia; assumption|].
  destruct (x <? 100) eqn:E2; cbn [app]; rewrite !DIG by lia; assumption.
Qed.


(** ** Theorems *)

(** Formatting into any buffer of at least 16 bytes stays inside it, leaves the NUL-terminated
    dotted-decimal text in it, and parsing that buffer returns the address. *)
Theorem dotted_quad_round_trip ip buf : 0 <= ip < 4294967296 -> 16 <= zlen buf ->
  exists rest, iptoa ip buf = Some (dotted ip ++ [0] ++ rest) /\
               atoip4 (dotted ip ++ [0] ++ rest) = Some ip /\ zlen (dotted ip) <= 15.
Proof.
  intros Hip HB. destruct (iptoa_text ip buf HB) as (rest & E & L). exists rest. split; [assumption|]. split.
  2:{ unfold dotted. pose proof (dec_len (octet ip 3)) as D3. pose proof (dec_len (octet ip 2)) as D2. pose proof (dec_len (octet ip 1)) as D1. pose proof (dec_len (octet ip 0)) as D0.
      rewrite !zlen_app. change (zlen [46]) with 1. lia. }
  unfold atoip4, dotted. rewrite <- !app_assoc. cbn [app].
  pose proof (octet_range ip 3) as O3. pose proof (octet_range ip 2) as O2. pose proof (octet_range ip 1) as O1. pose proof (octet_range ip 0) as O0.
  assert (ND46 : nondigit 46) by (left; lia). assert (ND0 : nondigit 0) by (left; lia).
  change 4%nat with (S (S (S (S 0)))).
  cbn [atoip4_loop].
  rewrite (atou_dec _ 46) by assumption. cbn [obind]. rewrite (skip_dec _ 46) by auto. cbn [obind]. change (46 =? 0) with false. cbv iota.
  rewrite (atou_dec _ 46) by assumption. cbn [obind]. rewrite (skip_dec _ 46) by auto. cbn [obind]. change (46 =? 0) with false. cbv iota.
  rewrite (atou_dec _ 46) by assumption. cbn [obind]. rewrite (skip_dec _ 46) by auto. cbn [obind]. change (46 =? 0) with false. cbv iota.
  rewrite (atou_dec _ 0) by assumption. cbn [obind]. rewrite (skip_dec _ 0) by auto. cbn [obind]. change (0 =? 0) with true. cbv iota. f_equal.
  rewrite !Z.shiftl_mul_pow2 by lia.
  change (2 ^ (8 * Z.of_nat 3)) with 16777216. change (2 ^ (8 * Z.of_nat 2)) with 65536. change (2 ^ (8 * Z.of_nat 1)) with 256. change (2 ^ (8 * Z.of_nat 0)) with 1.
  assert (DEC : ip = octet ip 3 * 16777216 + octet ip 2 * 65536 + octet ip 1 * 256 + octet ip 0).
  { unfold octet. change (2 ^ (8 * 3)) with 16777216. change (2 ^ (8 * 2)) with 65536. change (2 ^ (8 * 1)) with 256. change (2 ^ (8 * 0)) with 1. lia. }
  set (a := octet ip 3) in *. set (b := octet ip 2) in *. set (c := octet ip 1) in *. set (d := octet ip 0) in *. clearbody a b c d.
  unfold u32. rewrite !(Z.mod_small (_ * _)) by lia. rewrite Z.lor_0_l.
  rewrite (lor_add (a * 16777216) (b * 65536) 24) by (try change (2 ^ 24) with 16777216; lia).
  rewrite (lor_add (a * 16777216 + b * 65536) (c * 256) 16) by (try change (2 ^ 16) with 65536; lia).
  rewrite (lor_add (a * 16777216 + b * 65536 + c * 256) (d * 1) 8) by (try change (2 ^ 8) with 256; lia). lia.
Qed.

(** Parsing any NUL-terminated string is defined, and depends only on the bytes up to the
    terminator: nothing after it is read. *)
Theorem parse_stays_in_string s : ~ In 0 s -> exists v, forall t, atoip4 (s ++ 0 :: t) = Some v.
Proof.
  intros HN. unfold atoip4.
  assert (AU : forall s, ~ In 0 s -> forall r, exists v, forall t, atou (s ++ 0 :: t) r = Some v).
  { clear. induction s as [|c s IH]; intros HN r.
    - exists r. reflexivity.
    - cbn [app atou]. destruct ((48 <=? c) && (c <=? 57)).
      + apply IH. intros H; apply HN; right; assumption.
      + exists r. reflexivity. }
  assert (SK : forall s, ~ In 0 s -> (forall t, skip_octet (s ++ 0 :: t) = Some (0 :: t)) \/
             exists s', ~ In 0 s' /\ forall t, skip_octet (s ++ 0 :: t) = Some (46 :: s' ++ 0 :: t)).
  { clear. induction s as [|c s IH]; intros HN.
    - left. reflexivity.
    - cbn [app skip_octet]. destruct (c =? 46) eqn:E.
      + apply Z.eqb_eq in E. subst. cbn [orb]. right. exists s. split; [intros H; apply HN; right; assumption|reflexivity].
      + destruct (c =? 0) eqn:E0; [apply Z.eqb_eq in E0; subst; exfalso; apply HN; left; reflexivity|]. cbn [orb].
        apply IH. intros H; apply HN; right; assumption. }
  assert (G : forall n s r, ~ In 0 s -> exists v, forall t, atoip4_loop n (s ++ 0 :: t) r = Some v).
  { induction n as [|m IH]; intros s0 r HN0; [exists r; reflexivity|].
    destruct (AU s0 HN0 0) as [x Hx]. destruct (SK s0 HN0) as [HS|(s' & HN' & HS)].
    - eexists. intros t. cbn [atoip4_loop]. rewrite Hx. cbn [obind]. rewrite HS. cbn [obind]. change (0 =? 0) with true. cbv iota. reflexivity.
    - destruct (IH s' (Z.lor r (u32 (Z.shiftl x (8 * Z.of_nat m)))) HN') as [v Hv]. exists v. intros t.
      cbn [atoip4_loop]. rewrite Hx. cbn [obind]. rewrite HS. cbn [obind]. change (46 =? 0) with false. cbv iota. apply Hv. }
  apply G. assumption.
Qed.

Print Assumptions dotted_quad_round_trip.
Print Assumptions parse_stays_in_string.

Example ex_text : iptoa 3232235777 (repeat 7 16) = Some [49;57;50;46;49;54;56;46;49;46;49;0;7;7;7;7].
Proof. reflexivity. Qed.
Example ex_text_max : iptoa 4294967295 (repeat 7 16) = Some [50;53;53;46;50;53;53;46;50;53;53;46;50;53;53;0]
  /\ atoip4 [50;53;53;46;50;53;53;46;50;53;53;46;50;53;53;0] = Some 4294967295
  /\ iptoa 4294967295 (repeat 7 15) = None.
Proof. split; [vm_compute; reflexivity|]. split; vm_compute; reflexivity. Qed.
