(** The frames the datagram sockets build: port unreachable, echo reply, outgoing
    UDP and ICMP datagrams, IGMP reports. *)
From Verif Require Import Base Checksum ChecksumProps Route RouteProps Arp HttpUrl ListUtil Fifo Forward ForwardSpec ForwardProofs ForwardStep Udp UdpFifo UdpSpec.

Lemma some_inj {A} (a b : A) : Some a = Some b -> a = b.
Proof. intros H. injection H. auto. Qed.
Lemma bytes_lit a : forallb (fun x => (0 <=? x) && (x <? 256)) a = true -> Forall byte a.
Proof. intros H. rewrite forallb_forall in H. apply Forall_forall. intros x Hx. specialize (H x Hx). unfold byte. lia. Qed.
Lemma Forall_app2 {A} (P : A -> Prop) a b : Forall P a -> Forall P b -> Forall P (a ++ b).
Proof. intros. apply Forall_app. auto. Qed.
Lemma zlen_be16 v : zlen (be16 v) = 2. Proof. reflexivity. Qed.
Lemma zlen_be32 v : zlen (be32 v) = 4. Proof. reflexivity. Qed.

Lemma word_ext a b o o' : (forall j, 0 <= j < 2 -> zget a (o + j) = zget b (o' + j)) -> word a o = word b o'.
Proof. intros H. unfold word. rewrite <- (Z.add_0_r o) at 1. rewrite <- (Z.add_0_r o') at 1. rewrite !H by lia. reflexivity. Qed.
Lemma addr_ext a b o o' : (forall j, 0 <= j < 4 -> zget a (o + j) = zget b (o' + j)) -> addr a o = addr b o'.
Proof.
  intros H. unfold addr. f_equal; [f_equal|]; apply word_ext; intros j J; [apply H; lia|].
  specialize (H (2 + j) ltac:(lia)). rewrite !Z.add_assoc in H. exact H.
Qed.
Lemma word_at_be16 p a b v : p = zlen a -> 0 <= v < 65536 -> word (a ++ be16 v ++ b) p = v.
Proof. intros ->. apply word_be16. Qed.
Lemma addr_at_be32 p a b v : p = zlen a -> 0 <= v < 4294967296 -> addr (a ++ be32 v ++ b) p = v.
Proof. intros ->. apply addr_be32. Qed.

Ltac sh H k := let j := fresh "j" in let J := fresh "J" in let E := fresh "E" in
  intros j J; pose proof (H (k + j) ltac:(lia) ltac:(lia) ltac:(lia)) as E; rewrite Z.add_assoc in E; exact E.

(** A frame put together from its three parts. *)
Lemma frame_parts eth ip b g : g = eth ++ ip ++ b -> zlen eth = 14 -> zlen ip = 20 ->
  zlen g = 34 + zlen b /\ (forall k, 0 <= k < 14 -> zget g k = zget eth k) /\ (forall k, 0 <= k < 20 -> zget g (14 + k) = zget ip k) /\
  (forall k, 0 <= k -> zget g (34 + k) = zget b k) /\ part g 14 20 = ip /\ (forall n, n = zlen b -> part g 34 n = b) /\ skipn 34 g = b.
Proof.
  intros -> LE LI. split; [rewrite !zlen_app; lia|]. split; [intros; apply zget_app1; lia|].
  split; [intros; rewrite zget_app2 by lia; rewrite LE; replace (14 + k - 14) with k by lia; apply zget_app1; lia|].
  split; [intros; rewrite zget_app2 by lia; rewrite LE; rewrite zget_app2 by lia; f_equal; lia|].
  split; [rewrite part_app_r by lia; replace (14 - zlen eth) with 0 by lia; rewrite part_app_l by lia; apply part_all; lia|].
  split; [intros n ->; rewrite part_app_r by lia; replace (34 - zlen eth) with 20 by lia; rewrite part_app_r by lia; replace (20 - zlen ip) with 0 by lia; apply part_all; lia|].
  rewrite app_assoc. rewrite skipn_app. rewrite skipn_all2 by (rewrite app_length; unfold zlen in *; lia). cbn [app].
  replace (34 - length (eth ++ ip))%nat with 0%nat by (rewrite app_length; unfold zlen in *; lia). reflexivity.
Qed.

Local Ltac Zify.zify_post_hook ::= Z.div_mod_to_equations.
Lemma be32_of_bytes a b c d : byte a -> byte b -> byte c -> byte d -> be32 (65536 * (256 * a + b) + (256 * c + d)) = [a; b; c; d].
Proof.
  unfold byte, be32. intros A B C D. rewrite !Z.shiftr_div_pow2 by lia. change (2 ^ 24) with 16777216. change (2 ^ 16) with 65536. change (2 ^ 8) with 256.
  replace ((65536 * (256 * a + b) + (256 * c + d)) / 16777216) with a by lia.
  replace ((65536 * (256 * a + b) + (256 * c + d)) / 65536) with (256 * a + b) by lia.
  replace ((65536 * (256 * a + b) + (256 * c + d)) / 256) with (256 * (256 * a + b) + c) by lia.
  f_equal; [lia|]. f_equal; [lia|]. f_equal; [lia|]. f_equal; lia.
Qed.
Lemma part_be32 f o : Forall byte f -> 0 <= o /\ o + 4 <= zlen f -> part f o 4 = be32 (addr f o).
Proof.
  intros HB H. pose proof (zget_byte f o HB) as B0. pose proof (zget_byte f (o + 1) HB) as B1. pose proof (zget_byte f (o + 2) HB) as B2. pose proof (zget_byte f (o + 2 + 1) HB) as B3.
  unfold addr, word. rewrite be32_of_bytes by assumption. apply zget_ext; [rewrite zlen_part by lia; reflexivity|].
  intros k K. rewrite zlen_part in K by lia. rewrite zget_part by lia. assert (CK : k = 0 \/ k = 1 \/ k = 2 \/ k = 3) by lia.
  destruct CK as [-> | [-> | [-> | ->]]]; [rewrite Z.add_0_r| | |replace (o + 3) with (o + 2 + 1) by lia]; reflexivity.
Qed.
Lemma part_be16 f o : Forall byte f -> 0 <= o /\ o + 2 <= zlen f -> part f o 2 = be16 (word f o).
Proof.
  intros HB H. pose proof (zget_byte f o HB) as B0. pose proof (zget_byte f (o + 1) HB) as B1. unfold word, be16.
  rewrite Z.shiftr_div_pow2 by lia. change (2 ^ 8) with 256. replace ((256 * zget f o + zget f (o + 1)) / 256 mod 256) with (zget f o) by lia.
  replace ((256 * zget f o + zget f (o + 1)) mod 256) with (zget f (o + 1)) by lia. apply zget_ext; [rewrite zlen_part by lia; reflexivity|].
  intros k K. rewrite zlen_part in K by lia. rewrite zget_part by lia. assert (CK : k = 0 \/ k = 1) by lia.
  destruct CK as [-> | ->]; [rewrite Z.add_0_r|]; reflexivity.
Qed.
Local Ltac Zify.zify_post_hook ::= idtac.
Lemma fill_spec b off : Forall byte b -> zlen b <= 65535 -> 0 <= off -> off mod 2 = 0 -> off + 2 <= zlen b ->
  exists b', fill_checksum b off = Some b' /\ ones_complement_valid b' /\ zlen b' = zlen b /\ Forall byte b' /\
    (forall i, 0 <= i -> i <> off -> i <> off + 1 -> zget b' i = zget b i).
Proof.
  intros BB LB H0 H1 H2. destruct (filled_checksum_verifies b off BB LB H0 H1 H2) as (c & Ei & Ci & Li & Si).
  assert (Bi : Forall byte c).
  { unfold fill_checksum, put16 in Ei. destruct (mwrite_spec b off (Checksum.be16 0)) as (m1 & E1 & L1 & _ & B1); [lia|cbn; lia|].
    rewrite E1 in Ei. cbn [obind] in Ei. destruct (checksum m1) as [v|]; [|discriminate]. cbn [obind] in Ei.
    destruct (mwrite_spec m1 off (Checksum.be16 v)) as (m2 & E2 & _ & _ & B2); [lia|cbn; lia|].
    assert (m2 = c) by congruence. subst m2. apply B2; [|apply be16_bytes]. apply B1; [assumption|apply be16_bytes]. }
  exists c. split; [assumption|]. split; [|split; [assumption|split; [assumption|intros; apply Si; assumption]]].
  destruct (checksum_accepts_iff_valid c Bi) as (v & Ec & _ & Hc); [lia|]. apply Hc. congruence.
Qed.
Lemma transport_valid_iff ph b : Forall byte ph -> zlen ph = 12 -> Forall byte b -> zlen b <= 65523 ->
  exists r, transport_verify ph b = Some r /\ (r = true <-> ones_complement_valid (ph ++ b)).
Proof.
  intros HP LP HB LB. unfold transport_verify. rewrite transport_is_checksum_of_concat by (assumption || lia).
  destruct (checksum_accepts_iff_valid (ph ++ b)) as (c & E & R & V); [apply Forall_app2; assumption|rewrite zlen_app; lia|].
  rewrite E. cbn [obind]. exists (c =? 0). split; [reflexivity|]. rewrite Z.eqb_eq. exact V.
Qed.
Lemma fill_udp_spec ph b : Forall byte ph -> zlen ph = 12 -> Forall byte b -> 8 <= zlen b <= 65523 ->
  exists b', fill_udp ph b 6 = Some b' /\ ones_complement_valid (ph ++ b') /\ word b' 6 <> 0 /\ zlen b' = zlen b /\ Forall byte b' /\
    (forall i, 0 <= i -> i <> 6 -> i <> 7 -> zget b' i = zget b i).
Proof.
  intros HP LP BB LB. destruct (filled_transport_verifies ph b 6 HP LP BB) as (_ & (c & Ei & Vi & Li & Wi)); [lia|lia|reflexivity|lia|].
  assert (X : Forall byte c /\ forall i, 0 <= i -> i <> 6 -> i <> 7 -> zget c i = zget b i).
  { unfold fill_udp, put16 in Ei. destruct (mwrite_spec b 6 (Checksum.be16 0)) as (m1 & E1 & L1 & S1 & B1); [lia|cbn; lia|].
    rewrite E1 in Ei. cbn [obind] in Ei. destruct (transport_checksum ph m1) as [v|]; [|discriminate]. cbn [obind] in Ei.
    set (v' := if v =? 0 then 65535 else v) in *. destruct (mwrite_spec m1 6 (Checksum.be16 v')) as (m2 & E2 & _ & S2 & B2); [lia|cbn; lia|].
    assert (m2 = c) by congruence. subst m2. split; [apply B2; [|apply be16_bytes]; apply B1; [assumption|apply be16_bytes]|].
    intros i I0 I1 I2. rewrite S2, S1 by lia. change (zlen (Checksum.be16 v')) with 2. change (zlen (Checksum.be16 0)) with 2. destruct ((6 <=? i) && (i <? 6 + 2)) eqn:Q; [lia|reflexivity]. }
  destruct X as [Bc Sc]. exists c. split; [assumption|].
  destruct (transport_valid_iff ph c HP LP Bc) as (r & Er & Hr); [lia|].
  split; [apply Hr; congruence|]. split; [|auto].
  unfold word_at in Wi. unfold word. lia.
Qed.

(** ** Port unreachable *)
Lemma unreach_spec w st i f : uworld_ok w -> 0 <= i < zlen (w_ifs w) -> Forall byte f -> 42 <= zlen f -> zget f 14 = 69 ->
  exists st' evs, send_port_unreachable w st i f = Some (st', evs) /\
    (st' = st \/ st' = with_id st (u16 (u_id st + 1))) /\
    (evs = [] \/ exists g, evs = [UUnreach i g] /\ port_unreachable w i f g) /\
    ((forall g, w_fsend w i g = false) -> 70 <= w_mtu w i -> evs <> []).
Proof.
  intros [(WI & _) _] Hi HB L H14. unfold send_port_unreachable.
  destruct (nth_error (w_ifs w) (Z.to_nat i)) as [x|] eqn:NX; [|apply nth_error_None in NX; unfold zlen in *; lia].
  assert (XO : iface_ok x) by (rewrite Forall_forall in WI; apply WI; eapply nth_error_In; exact NX). destruct XO as (MX & BX & CX).
  rewrite H14. change (Z.land 69 15 * 4) with 20. cbv zeta. change (20 <? 20) with false. cbv iota. change (20 + 8) with 28. change (68 <? 28) with false. cbv iota.
  rewrite mread_part by lia. cbn [obind]. set (quoted := part f 14 28). assert (LQ : zlen quoted = 28) by (apply zlen_part; lia).
  assert (BQ : Forall byte quoted) by (apply part_bytes; assumption).
  set (body := [3; 3; 0; 0; 0; 0; 0; 0] ++ quoted). assert (LB : zlen body = 36) by (unfold body; rewrite zlen_app, LQ; reflexivity).
  assert (BB : Forall byte body) by (apply Forall_app2; [apply bytes_lit; reflexivity|assumption]).
  destruct (fill_spec body 2 BB) as (icmp & Ei & Oi & Li & Bi & Si); [lia|lia|reflexivity|lia|]. rewrite Ei. cbn [obind].
  change (slice f 26 4) with (part f 26 4). change (u16 (28 + 28)) with 56.
  assert (LS : zlen (part f 26 4) = 4) by (apply zlen_part; lia).
  set (ip0 := [69; zget f 15] ++ be16 56 ++ be16 (u_id st) ++ [64; 0; 64; 1; 0; 0] ++ be32 (c_ip (i_conf x)) ++ part f 26 4).
  pose proof (zget_byte f 15 HB) as B15.
  assert (B0 : Forall byte ip0).
  { unfold ip0. apply Forall_app2; [repeat constructor; unfold byte; lia|]. apply Forall_app2; [apply be16_bytes|]. apply Forall_app2; [apply be16_bytes|].
    apply Forall_app2; [apply bytes_lit; reflexivity|]. apply Forall_app2; [apply be32_bytes|]. apply part_bytes. assumption. }
  assert (L0 : zlen ip0 = 20) by (unfold ip0; rewrite !zlen_app, LS; reflexivity).
  destruct (hdr20_spec ip0 B0 L0 eq_refl) as (ip & Ep & Lp & Sp & Op & Bp). rewrite Ep. cbn [obind].
  set (eth := if i_noneth x then repeat 0 14 else slice f 6 6 ++ i_mac x ++ be16 2048).
  assert (L6 : zlen (slice f 6 6) = 6) by (rewrite slice_part; apply zlen_part; lia).
  assert (LE : zlen eth = 14).
  { unfold eth. destruct (i_noneth x); [reflexivity|]. rewrite !zlen_app, L6, MX. reflexivity. }
  remember (eth ++ ip ++ icmp) as g eqn:EG. destruct (frame_parts _ _ _ _ EG LE Lp) as (LG & GE & GI & GC & PI & PC & _).
  assert (PU : port_unreachable w i f g).
  { exists x. split; [exact NX|]. split; [lia|].
    assert (G14 : forall k, 0 <= k < 20 -> k <> 10 -> k <> 11 -> zget g (14 + k) = zget ip0 k) by (intros; rewrite GI by lia; apply Sp; lia).
    split; [exact (G14 0 ltac:(lia) ltac:(lia) ltac:(lia))|].
    split. { unfold total. rewrite (word_ext g ip0 16 2); [unfold ip0; apply word_at_be16; [reflexivity|lia]|sh G14 2]. }
    split. { rewrite (word_ext g ip0 20 6); [reflexivity|sh G14 6]. }
    split; [exact (G14 8 ltac:(lia) ltac:(lia) ltac:(lia))|]. split; [exact (G14 9 ltac:(lia) ltac:(lia) ltac:(lia))|].
    split. { unfold src. rewrite (addr_ext g ip0 26 12) by (sh G14 12).
      exact (addr_at_be32 12 ([69; zget f 15] ++ be16 56 ++ be16 (u_id st) ++ [64; 0; 64; 1; 0; 0]) (part f 26 4) (c_ip (i_conf x)) eq_refl (proj1 CX)). }
    split. { unfold dst, src. rewrite (addr_ext g ip0 30 16) by (sh G14 16).
      apply addr_ext. intros j J. 
      change ip0 with (([69; zget f 15] ++ be16 56 ++ be16 (u_id st) ++ [64; 0; 64; 1; 0; 0] ++ be32 (c_ip (i_conf x))) ++ part f 26 4).
      set (pre := [69; zget f 15] ++ be16 56 ++ be16 (u_id st) ++ [64; 0; 64; 1; 0; 0] ++ be32 (c_ip (i_conf x))). assert (LPr : zlen pre = 16) by reflexivity.
      rewrite zget_app2 by lia. rewrite LPr. rewrite zget_part by lia. f_equal. lia. }
    split; [exact (G14 1 ltac:(lia) ltac:(lia) ltac:(lia))|].
    split; [rewrite PI; exact Op|]. split; [rewrite PC by lia; exact Oi|].
    split; [change 34 with (34 + 0); rewrite GC, Si by lia; reflexivity|]. split; [change 35 with (34 + 1); rewrite GC, Si by lia; reflexivity|].
    split. { apply zget_ext; [rewrite !zlen_part by lia; reflexivity|]. intros k K. rewrite zlen_part in K by lia. rewrite !zget_part by lia.
      replace (42 + k) with (34 + (8 + k)) by lia. rewrite GC, Si by lia. unfold body. rewrite zget_app2 by (change (zlen [3; 3; 0; 0; 0; 0; 0; 0]) with 8; lia).
      change (zlen [3; 3; 0; 0; 0; 0; 0; 0]) with 8. unfold quoted. rewrite zget_part by lia. f_equal. lia. }
    intros NE. assert (EE : eth = part f 6 6 ++ i_mac x ++ be16 2048) by (unfold eth; rewrite NE; reflexivity).
    assert (L6' : zlen (part f 6 6) = 6) by (apply zlen_part; lia).
    rewrite EG, EE, <- !app_assoc. split; [|split].
    - rewrite part_app_l by lia. apply part_all. lia.
    - rewrite part_app_r by lia. replace (6 - zlen (part f 6 6)) with 0 by lia. rewrite part_app_l by lia. apply part_all. lia.
    - rewrite app_assoc. apply word_at_be16; [rewrite zlen_app; lia|lia]. }
  clear GE GI GC EG PI PC.
  destruct (w_fsend w i g) eqn:QF; [|destruct (Z.ltb_spec (w_mtu w i) (zlen g))].
  - eexists _, []. split; [reflexivity|]. split; [right; reflexivity|]. split; [left; reflexivity|]. intros HF. rewrite HF in QF. discriminate.
  - eexists _, []. split; [reflexivity|]. split; [right; reflexivity|]. split; [left; reflexivity|]. intros _ HM. lia.
  - eexists _, [UUnreach i g]. split; [reflexivity|]. split; [right; reflexivity|]. split; [right; exists g; auto|]. discriminate.
Qed.

(** ** Echo reply *)
Lemma echo_spec w i f x id : uworld_ok w -> 0 <= i < zlen (w_ifs w) -> frame_ok f -> 42 <= zlen f -> zget f 14 = 69 ->
  28 <= total f -> 14 + total f <= zlen f -> nth_error (w_ifs w) (Z.to_nat i) = Some x ->
  exists g, echo_reply x id f = Some g /\ echo_answer w i f g /\ zlen g = zlen f.
Proof.
  intros [(WI & _) _] Hi [HB HL] L H14 T1 T2 NX.
  assert (XO : iface_ok x) by (rewrite Forall_forall in WI; apply WI; eapply nth_error_In; exact NX). destruct XO as (MX & BX & CX).
  unfold echo_reply. change (rd16 f 16) with (total f).
  destruct (mwrite_spec f 34 [0; 0]) as (m1 & E1 & L1 & S1 & B1); [lia|change (zlen [0; 0]) with 2; lia|]. rewrite E1. cbn [obind].
  specialize (B1 HB ltac:(apply bytes_lit; reflexivity)).
  rewrite mread_part by lia. cbn [obind]. set (body := part m1 34 (total f - 20)).
  assert (LB : zlen body = total f - 20) by (apply zlen_part; lia). assert (BB : Forall byte body) by (apply part_bytes; assumption).
  destruct (fill_spec body 2 BB) as (c & Ec & Oc & Lc & Bc & Sc); [lia|lia|reflexivity|lia|]. rewrite Ec. cbn [obind].
  destruct (mwrite_spec m1 34 c) as (m2 & E2 & L2 & S2 & B2); [lia|lia|]. rewrite E2. cbn [obind]. specialize (B2 B1 Bc).
  change (slice f 30 4) with (part f 30 4). change (slice f 26 4) with (part f 26 4).
  assert (LX : zlen (part f 30 4 ++ part f 26 4) = 8) by (rewrite zlen_app, !zlen_part by lia; reflexivity).
  destruct (mwrite_spec m2 26 (part f 30 4 ++ part f 26 4)) as (m3 & E3 & L3 & S3 & B3); [lia|lia|]. rewrite E3. cbn [obind].
  specialize (B3 B2 ltac:(apply Forall_app2; apply part_bytes; assumption)).
  destruct (mwrite_spec m3 22 [64]) as (m4 & E4 & L4 & S4 & B4); [lia|change (zlen [64]) with 1; lia|]. rewrite E4. cbn [obind].
  specialize (B4 B3 ltac:(apply bytes_lit; reflexivity)).
  destruct (mwrite_spec m4 18 (be16 id)) as (m5 & E5 & L5 & S5 & B5); [lia|rewrite zlen_be16; lia|]. rewrite E5. cbn [obind].
  specialize (B5 B4 (be16_bytes _)).
  destruct (mwrite_spec m5 20 [64; 0]) as (m6 & E6 & L6 & S6 & B6); [lia|change (zlen [64; 0]) with 2; lia|]. rewrite E6. cbn [obind].
  specialize (B6 B5 ltac:(apply bytes_lit; reflexivity)).
  change (zlen [0; 0]) with 2 in S1. change (zlen [64]) with 1 in S4. rewrite zlen_be16 in S5. change (zlen [64; 0]) with 2 in S6. rewrite LX in S3.
  assert (LOW : forall k, 14 <= k < 18 -> zget m6 k = zget f k).
  { intros k K. rewrite S6, S5, S4, S3, S2, S1 by lia.
    repeat match goal with |- (if ?b then _ else _) = _ => replace b with false by lia end. reflexivity. }
  assert (K23 : zget m6 23 = zget f 23).
  { rewrite S6, S5, S4, S3, S2, S1 by lia. rewrite Lc. 
    repeat match goal with |- (if ?b then _ else _) = _ => replace b with false by lia end. reflexivity. }
  assert (HI : forall k, 38 <= k -> zget m6 k = zget f k).
  { intros k K. rewrite S6, S5, S4, S3 by lia. repeat match goal with |- (if ?b then _ else _) = _ => replace b with false by lia end.
    rewrite S2 by lia. destruct ((34 <=? k) && (k <? 34 + zlen c)) eqn:Q.
    - rewrite Sc by lia. unfold body. rewrite zget_part by lia. replace (34 + (k - 34)) with k by lia. rewrite S1 by lia. replace ((34 <=? k) && (k <? 34 + 2)) with false by lia. reflexivity.
    - rewrite S1 by lia. replace ((34 <=? k) && (k <? 34 + 2)) with false by lia. reflexivity. }
  assert (ADR : forall j, 0 <= j < 8 -> zget m6 (26 + j) = zget (part f 30 4 ++ part f 26 4) j).
  { intros j J. rewrite S6, S5, S4, S3 by lia. repeat match goal with |- (if ?b then _ else _) = _ => first [replace b with false by lia | replace b with true by lia] end. f_equal. lia. }
  assert (PC : part m6 34 (total f - 20) = c).
  { apply zget_ext; [rewrite zlen_part by lia; lia|]. intros k K. rewrite zlen_part in K by lia. rewrite zget_part by lia. rewrite S6, S5, S4, S3, S2 by lia. rewrite Lc, LB.
    repeat match goal with |- (if ?b then _ else _) = _ => first [replace b with false by lia | replace b with true by lia] end. f_equal. lia. }
  assert (C0 : zget c 0 = 0 /\ zget c 1 = 0).
  { split; rewrite Sc by lia; unfold body; rewrite zget_part by lia; rewrite S1 by lia; reflexivity. }
  assert (F : zget m6 14 = 69 /\ zget m6 20 = 64 /\ zget m6 21 = 0 /\ zget m6 22 = 64).
  { split; [rewrite LOW by lia; assumption|]. split; [rewrite S6 by lia; reflexivity|]. split; [rewrite S6 by lia; reflexivity|].
    rewrite S6, S5, S4 by lia. reflexivity. }
  destruct F as (F14 & F20 & F21 & F22). clear S1 S2 S3 S4 S5 S6.
  assert (IH : ihl m6 = 20) by (unfold ihl; rewrite F14; reflexivity).
  destruct (set_ck_spec m6 B6) as (h & Eh & Lh & Sh & Vh & Bh); [lia|rewrite F14; reflexivity|lia|lia|].
  unfold set_ck in Eh. destruct (iphdr_set_checksum (skipn 14 m6)) as [ip|]; [|discriminate]. cbn [obind] in *. apply some_inj in Eh.
  assert (LF : zlen (firstn 14 m6) = 14) by (change 14%nat with (Z.to_nat 14); apply zlen_firstn; lia).
  set (eth := if i_noneth x then firstn 14 m6 else slice f 6 6 ++ i_mac x ++ be16 2048).
  assert (L66 : zlen (slice f 6 6) = 6) by (rewrite slice_part; apply zlen_part; lia).
  assert (LE : zlen eth = 14) by (unfold eth; destruct (i_noneth x); [assumption|rewrite !zlen_app, L66, MX; reflexivity]).
  set (g := eth ++ ip). assert (LG : zlen g = zlen f) by (unfold g; rewrite zlen_app, LE; rewrite <- Eh, zlen_app in Lh; lia).
  assert (GH : forall k, 14 <= k -> zget g k = zget h k).
  { intros k K. unfold g. rewrite <- Eh. rewrite !zget_app2 by lia. f_equal. lia. }
  exists g. split; [reflexivity|]. split; [|assumption].
  assert (G : forall k, 14 <= k -> k <> 24 -> k <> 25 -> zget g k = zget m6 k) by (intros; rewrite GH by lia; apply Sh; lia).
  exists x. split; [assumption|]. split; [assumption|]. split; [rewrite G, LOW by lia; reflexivity|]. split; [rewrite G, LOW by lia; reflexivity|].
  split. { unfold total, word. rewrite !G, !LOW by lia. reflexivity. }
  split. { unfold word. rewrite !G by lia. change (20 + 1) with 21. rewrite F20, F21. reflexivity. }
  split; [unfold ttl; rewrite G by lia; assumption|]. split; [unfold proto; rewrite G by lia; exact K23|].
  split. { unfold src, dst. apply addr_ext. intros j J. rewrite G, ADR by lia. rewrite zget_app1 by (rewrite zlen_part; lia). apply zget_part; lia. }
  split. { unfold src, dst. apply addr_ext. intros j J. rewrite G by lia. replace (30 + j) with (26 + (4 + j)) by lia. rewrite ADR by lia.
    rewrite zget_app2 by (rewrite zlen_part; lia). rewrite zlen_part by lia. rewrite zget_part by lia. f_equal. lia. }
  assert (PG : part g 34 (total f - 20) = c).
  { rewrite <- PC. apply zget_ext; [rewrite !zlen_part by lia; reflexivity|]. intros k K. rewrite zlen_part in K by lia. rewrite !zget_part by lia. apply G; lia. }
  assert (G34 : forall j, 0 <= j < total f - 20 -> zget g (34 + j) = zget c j) by (intros j J; rewrite <- PG; rewrite zget_part by lia; reflexivity).
  split; [change 34 with (34 + 0); rewrite G34 by lia; apply C0|]. split; [change 35 with (34 + 1); rewrite G34 by lia; apply C0|].
  split; [intros k K; rewrite G, HI by lia; reflexivity|].
  split. { assert (IHh : ihl h = 20) by (unfold ihl; rewrite Sh, F14 by lia; reflexivity). rewrite IHh in Vh.
    replace (part g 14 20) with (part h 14 20); [assumption|]. apply zget_ext; [rewrite !zlen_part by lia; reflexivity|].
    intros k K. rewrite zlen_part in K by lia. rewrite !zget_part by lia. symmetry. apply GH. lia. }
  split; [rewrite PG; assumption|].
  intros NE. assert (EE : eth = part f 6 6 ++ i_mac x ++ be16 2048) by (unfold eth; rewrite NE; reflexivity).
  assert (L6' : zlen (part f 6 6) = 6) by (apply zlen_part; lia).
  unfold g. rewrite EE, <- !app_assoc. split; [|split].
  - rewrite part_app_l by lia. apply part_all. lia.
  - rewrite part_app_r by lia. replace (6 - zlen (part f 6 6)) with 0 by lia. rewrite part_app_l by lia. apply part_all. lia.
  - rewrite app_assoc. apply word_at_be16; [rewrite zlen_app; lia|lia].
Qed.

(** ** Outgoing datagrams *)
Definition ranges (t : sock) : Prop :=
  addr32 (s_local t) /\ addr32 (s_remote t) /\ addr32 (s_bound t) /\ port_ok (s_src t) /\ port_ok (s_dst t) /\ byte (s_mttl t) /\ byte (s_tos t) /\ 0 <= s_mif t < 256.
Lemma header_spec t proto_ id ttl_ len : ranges t -> byte proto_ -> byte ttl_ -> 0 <= len < 65516 ->
  exists ip, iphdr_set_checksum ([69; s_tos t] ++ be16 (u16 (20 + len)) ++ be16 id ++ [0; 0; ttl_; proto_; 0; 0] ++ be32 (s_local t) ++ be32 (s_remote t)) = Some ip /\
    zlen ip = 20 /\ ones_complement_valid ip /\ Forall byte ip /\ zget ip 0 = 69 /\ zget ip 1 = s_tos t /\ word ip 2 = 20 + len /\ word ip 6 = 0 /\ zget ip 8 = ttl_ /\ zget ip 9 = proto_ /\
    addr ip 12 = s_local t /\ addr ip 16 = s_remote t.
Proof.
  intros (R1 & R2 & _ & _ & _ & _ & R5 & _) BP BT HL. set (h := [69; s_tos t] ++ be16 (u16 (20 + len)) ++ be16 id ++ [0; 0; ttl_; proto_; 0; 0] ++ be32 (s_local t) ++ be32 (s_remote t)).
  assert (BH : Forall byte h).
  { unfold h. apply Forall_app2; [repeat constructor; unfold byte in *; lia|]. apply Forall_app2; [apply be16_bytes|]. apply Forall_app2; [apply be16_bytes|].
    apply Forall_app2; [repeat constructor; unfold byte in *; lia|]. apply Forall_app2; apply be32_bytes. }
  destruct (hdr20_spec h BH eq_refl eq_refl) as (ip & E & L & S & O & B). exists ip. split; [assumption|]. split; [assumption|]. split; [assumption|]. split; [assumption|].
  split; [rewrite S by lia; reflexivity|]. split; [rewrite S by lia; reflexivity|].
  split. { rewrite (word_ext ip h 2 2) by (intros j J; apply S; lia). unfold h. rewrite word_at_be16; [unfold u16; apply Z.mod_small; lia|reflexivity|unfold u16; apply Z.mod_pos_bound; lia]. }
  split. { rewrite (word_ext ip h 6 6) by (intros j J; apply S; lia). reflexivity. }
  split; [rewrite S by lia; reflexivity|]. split; [rewrite S by lia; reflexivity|].
  split. { rewrite (addr_ext ip h 12 12) by (intros j J; apply S; lia).
    exact (addr_at_be32 12 ([69; s_tos t] ++ be16 (u16 (20 + len)) ++ be16 id ++ [0; 0; ttl_; proto_; 0; 0]) (be32 (s_remote t)) (s_local t) eq_refl R1). }
  rewrite (addr_ext ip h 16 16) by (intros j J; apply S; lia).
  pose proof (addr_at_be32 16 ([69; s_tos t] ++ be16 (u16 (20 + len)) ++ be16 id ++ [0; 0; ttl_; proto_; 0; 0] ++ be32 (s_local t)) [] (s_remote t) eq_refl R2) as X.
  rewrite <- !app_assoc, app_nil_r in X. exact X.
Qed.
Lemma udp_frame_spec t id b : ranges t -> Forall byte b -> zlen b <= 1500 ->
  exists f, add_header t 17 id (be16 (s_src t) ++ be16 (s_dst t) ++ be16 (u16 (zlen b + 8)) ++ [0; 0] ++ b) = Some f /\ datagram_of t b f /\ Forall byte f.
Proof.
  intros R HB HL. pose proof (zlen_nonneg b) as N. pose proof R as (R1 & R2 & _ & R3 & R4 & R5 & _ & _). unfold add_header.
  set (u := be16 (s_src t) ++ be16 (s_dst t) ++ be16 (u16 (zlen b + 8)) ++ [0; 0] ++ b).
  assert (LU : zlen u = 8 + zlen b) by (unfold u; rewrite !zlen_app, !zlen_be16; change (zlen [0; 0]) with 2; lia).
  assert (BU : Forall byte u) by (unfold u; repeat (apply Forall_app2; [apply be16_bytes|]); apply Forall_app2; [apply bytes_lit; reflexivity|assumption]).
  change (17 =? 17) with true. cbn [andb]. set (tl := if ip_is_multicast (s_remote t) then s_mttl t else 64).
  assert (BT : byte tl) by (unfold tl; destruct (ip_is_multicast (s_remote t)); [assumption|unfold byte; lia]).
  destruct (header_spec t 17 id tl (zlen u) R ltac:(unfold byte; lia) BT ltac:(lia)) as (ip & Ei & Li & Oi & Bi & I0 & I1 & I2 & I6 & I8 & I9 & I12 & I16).
  rewrite Ei. cbn [obind]. rewrite LU. assert (EU : u16 (8 + zlen b) = 8 + zlen b) by (unfold u16; apply Z.mod_small; lia). rewrite EU.
  set (ph := pseudo (be32 (s_local t)) (be32 (s_remote t)) 17 (8 + zlen b)).
  assert (BPh : Forall byte ph) by (unfold ph, pseudo; apply Forall_app2; [apply be32_bytes|]; apply Forall_app2; [apply be32_bytes|]; apply Forall_app2; [apply bytes_lit; reflexivity|apply be16_bytes]).
  destruct (fill_udp_spec ph u BPh eq_refl BU ltac:(lia)) as (v & Ev & Ov & Wv & Lv & Bv & Sv). rewrite Ev. cbn [obind].
  eexists. split; [reflexivity|]. set (z := repeat 0 14). remember (z ++ ip ++ v) as f eqn:EF.
  destruct (frame_parts _ _ _ _ EF eq_refl Li) as (LG & GE & GI & GC & PI & PC & _). rewrite Lv, LU in LG.
  assert (W2 : forall o, 0 <= o <= 18 -> word f (14 + o) = word ip o).
  { intros o Ho. apply word_ext. intros j J. rewrite <- Z.add_assoc. apply GI. lia. }
  assert (A2 : forall o, 0 <= o <= 16 -> addr f (14 + o) = addr ip o).
  { intros o Ho. apply addr_ext. intros j J. rewrite <- Z.add_assoc. apply GI. lia. }
  assert (U2 : forall o, 0 <= o <= 4 -> word f (34 + o) = word u o).
  { intros o Ho. apply word_ext. intros j J. rewrite <- Z.add_assoc. rewrite GC by lia. apply Sv; lia. }
  assert (UL : ulen f = 8 + zlen b).
  { unfold ulen. change 38 with (34 + 4). rewrite U2 by lia.
    pose proof (word_at_be16 4 (be16 (s_src t) ++ be16 (s_dst t)) ([0; 0] ++ b) (u16 (zlen b + 8)) eq_refl) as X. rewrite <- !app_assoc in X.
    unfold u. rewrite X by (unfold u16; apply Z.mod_pos_bound; lia). unfold u16. rewrite Z.mod_small by lia. lia. }
  assert (SF : Forall byte f) by (rewrite EF; apply Forall_app2; [apply bytes_lit; reflexivity|apply Forall_app2; assumption]).
  assert (AS : addr f 26 = s_local t) by (change 26 with (14 + 12); rewrite A2 by lia; assumption).
  assert (AD : addr f 30 = s_remote t) by (change 30 with (14 + 16); rewrite A2 by lia; assumption).
  assert (TT : total f = 28 + zlen b) by (unfold total; change 16 with (14 + 2); rewrite W2 by lia; rewrite I2, LU; lia).
  split; [|exact SF].
  split; [lia|]. split; [exact (eq_trans (GI 0 ltac:(lia)) I0)|]. split; [exact TT|].
  split; [change 20 with (14 + 6); rewrite W2 by lia; assumption|]. split; [exact (eq_trans (GI 9 ltac:(lia)) I9)|].
  split; [exact AS|]. split; [exact AD|].
  split. { unfold sport. change 34 with (34 + 0). rewrite U2 by lia. unfold u. apply (word_at_be16 0 []); [reflexivity|assumption]. }
  split. { unfold dport. change 36 with (34 + 2). rewrite U2 by lia. unfold u. apply word_at_be16; [reflexivity|assumption]. }
  split; [exact (eq_trans (GI 1 ltac:(lia)) I1)|].
  assert (T8 : ttl f = tl) by exact (eq_trans (GI 8 ltac:(lia)) I8).
  split; [intros M; rewrite T8; unfold tl; apply multicast_iff in M; [rewrite M; reflexivity|assumption]|].
  split; [intros M; rewrite T8; unfold tl; destruct (ip_is_multicast (s_remote t)) eqn:Q; [exfalso; apply M, multicast_iff; assumption|reflexivity]|].
  split; [rewrite PI; exact Oi|].
  split. { change 40 with (34 + 6). rewrite (word_ext f v (34 + 6) 6); [assumption|]. intros j J. rewrite <- Z.add_assoc. apply GC. lia. }
  assert (PL : payload f = b).
  { unfold payload. rewrite UL. apply zget_ext; [rewrite zlen_part; lia|]. intros k K. rewrite zlen_part in K by lia. rewrite zget_part by lia.
    replace (42 + k) with (34 + (8 + k)) by lia. rewrite GC, Sv by lia.
    change u with ((be16 (s_src t) ++ be16 (s_dst t) ++ be16 (u16 (zlen b + 8)) ++ [0; 0]) ++ b). rewrite zget_app2 by (change (8 <= 8 + k); lia).
    change (zlen (be16 (s_src t) ++ be16 (s_dst t) ++ be16 (u16 (zlen b + 8)) ++ [0; 0])) with 8. f_equal. lia. }
  split; [|exact PL].
  split; [lia|]. split; [lia|]. split; [lia|]. intros _. rewrite PC by lia.
  replace (pseudo_header f) with ph; [exact Ov|]. unfold ph, pseudo, pseudo_header.
  assert (BA : forall o, 0 <= o /\ o + 4 <= zlen f -> part f o 4 = be32 (addr f o)) by (intros; apply part_be32; assumption).
  pose proof (BA 26 ltac:(lia)) as B26. pose proof (BA 30 ltac:(lia)) as B30.
  assert (P8 : part f 26 8 = part f 26 4 ++ part f 30 4).
  { apply zget_ext; [rewrite zlen_app, !zlen_part by lia; reflexivity|]. intros k K. rewrite zlen_part in K by lia. rewrite zget_part by lia.
    destruct (Z.lt_ge_cases k 4); [rewrite zget_app1 by (rewrite zlen_part; lia); rewrite zget_part by lia; reflexivity|].
    rewrite zget_app2 by (rewrite zlen_part; lia). rewrite zlen_part by lia. rewrite zget_part by lia. f_equal. lia. }
  assert (P2 : part f 38 2 = be16 (8 + zlen b)).
  { rewrite <- UL. apply part_be16; [assumption|lia]. }
  rewrite P8, P2, B26, B30, AS, AD, <- !app_assoc. reflexivity.
Qed.
Lemma icmp_frame_spec t id b : ranges t -> Forall byte b -> 8 <= zlen b <= 1500 ->
  exists b' f, (if zget b 0 =? 8 then mwrite b 4 (be16 (s_src t)) else Some b) = Some b' /\ add_header t 1 id b' = Some f /\ message_of t b f /\ Forall byte f.
Proof.
  intros R HB HL. pose proof R as (R1 & R2 & _ & R3 & R4 & R5 & _ & _).
  assert (X : exists b', (if zget b 0 =? 8 then mwrite b 4 (be16 (s_src t)) else Some b) = Some b' /\ zlen b' = zlen b /\ Forall byte b' /\
    (forall k, 0 <= k -> (zget b 0 = 8 -> k <> 4 /\ k <> 5) -> zget b' k = zget b k) /\ (zget b 0 = 8 -> word b' 4 = s_src t)).
  { destruct (Z.eqb_spec (zget b 0) 8).
    - destruct (mwrite_spec b 4 (be16 (s_src t))) as (m & E & L & S & B); [lia|rewrite zlen_be16; lia|]. exists m. split; [assumption|]. split; [assumption|].
      split; [apply B; [assumption|apply be16_bytes]|]. rewrite zlen_be16 in S. split.
      + intros k K H. specialize (H ltac:(assumption)). rewrite S by lia. replace ((4 <=? k) && (k <? 4 + 2)) with false by lia. reflexivity.
      + intros _. rewrite (word_ext m (be16 (s_src t)) 4 0).
        * apply (word_at_be16 0 [] []); [reflexivity|assumption].
        * intros j J. rewrite S by lia. replace ((4 <=? 4 + j) && (4 + j <? 4 + 2)) with true by lia. f_equal. lia.
    - exists b. split; [reflexivity|]. split; [reflexivity|]. split; [assumption|]. split; [reflexivity|]. lia. }
  destruct X as (b' & E & L & B & S & ID). exists b'. unfold add_header. change (1 =? 17) with false. cbn [andb]. 
  destruct (header_spec t 1 id 64 (zlen b') R ltac:(unfold byte; lia) ltac:(unfold byte; lia) ltac:(lia)) as (ip & Ei & Li & Oi & Bi & I0 & I1 & I2 & I6 & I8 & I9 & I12 & I16).
  rewrite Ei. cbn [obind]. destruct (fill_spec b' 2 B) as (v & Ev & Ov & Lv & Bv & Sv); [lia|lia|reflexivity|lia|]. rewrite Ev. cbn [obind].
  eexists. split; [assumption|]. split; [reflexivity|]. set (z := repeat 0 14). remember (z ++ ip ++ v) as f eqn:EF.
  destruct (frame_parts _ _ _ _ EF eq_refl Li) as (LG & GE & GI & GC & PI & PC & _).
  assert (W2 : forall o, 0 <= o <= 18 -> word f (14 + o) = word ip o).
  { intros o Ho. apply word_ext. intros j J. rewrite <- Z.add_assoc. apply GI. lia. }
  assert (A2 : forall o, 0 <= o <= 16 -> addr f (14 + o) = addr ip o).
  { intros o Ho. apply addr_ext. intros j J. rewrite <- Z.add_assoc. apply GI. lia. }
  split; [|rewrite EF; apply Forall_app2; [apply bytes_lit; reflexivity|apply Forall_app2; assumption]].
  split; [lia|]. split; [exact (eq_trans (GI 0 ltac:(lia)) I0)|]. split; [unfold total; change 16 with (14 + 2); rewrite W2 by lia; rewrite I2; lia|].
  split; [change 20 with (14 + 6); rewrite W2 by lia; assumption|]. split; [exact (eq_trans (GI 9 ltac:(lia)) I9)|].
  split; [unfold src; change 26 with (14 + 12); rewrite A2 by lia; assumption|]. split; [unfold dst; change 30 with (14 + 16); rewrite A2 by lia; assumption|].
  split; [exact (eq_trans (GI 1 ltac:(lia)) I1)|]. split; [exact (eq_trans (GI 8 ltac:(lia)) I8)|]. split; [rewrite PI; exact Oi|]. split; [rewrite PC by lia; exact Ov|].
  split.
  - intros k K K2 K3 H. rewrite GC, Sv by lia. apply S; [lia|assumption].
  - intros H8. rewrite <- (ID H8). apply word_ext. intros j J. replace (38 + j) with (34 + (4 + j)) by lia. rewrite GC by lia. apply Sv; lia.
Qed.

(** ** IGMP *)
Lemma filled_hole a c : Forall byte a -> Forall byte c -> zlen a mod 2 = 0 -> zlen a + 2 + zlen c <= 65535 ->
  exists v, checksum (a ++ [0; 0] ++ c) = Some v /\ ones_complement_valid (a ++ be16 v ++ c).
Proof.
  intros BA BC EV HL. pose proof (zlen_nonneg a). pose proof (zlen_nonneg c).
  assert (BH : Forall byte (a ++ [0; 0] ++ c)) by (apply Forall_app2; [assumption|apply Forall_app2; [apply bytes_lit; reflexivity|assumption]]).
  assert (LH : zlen (a ++ [0; 0] ++ c) = zlen a + 2 + zlen c) by (rewrite !zlen_app; change (zlen [0; 0]) with 2; lia).
  destruct (fill_spec (a ++ [0; 0] ++ c) (zlen a) BH) as (h & Eh & Oh & _); [lia|lia|assumption|lia|].
  unfold fill_checksum, put16 in Eh. rewrite mwrite_app in Eh by reflexivity. cbn [obind] in Eh. change (Checksum.be16 0) with [0; 0] in Eh.
  destruct (checksum (a ++ [0; 0] ++ c)) as [v|]; [|discriminate]. cbn [obind] in Eh. rewrite mwrite_app in Eh by reflexivity. apply some_inj in Eh. subst h.
  exists v. split; [reflexivity|]. exact Oh.
Qed.
Lemma igmp_frame_spec w i x id g rec : uworld_ok w -> nth_error (w_ifs w) (Z.to_nat i) = Some x -> addr32 g -> (rec = 2 \/ rec = 3) ->
  exists f, igmp_frame w x id g rec = Some f /\ igmp_report w i g rec f.
Proof.
  intros [(WI & _) _] NX HG HR. assert (XO : iface_ok x) by (rewrite Forall_forall in WI; apply WI; eapply nth_error_In; exact NX). destruct XO as (MX & BX & CX & _).
  assert (BR : byte rec) by (unfold byte; lia).
  unfold igmp_frame.
  pose (a1 := [70; 0; 0; 40] ++ be16 id ++ [0; 0; 1; 2]). pose (z1 := be32 (c_ip (i_conf x)) ++ be32 3758096406 ++ [148; 4; 0; 0]).
  change ([70; 0; 0; 40] ++ be16 id ++ [0; 0; 1; 2; 0; 0] ++ be32 (c_ip (i_conf x)) ++ be32 3758096406 ++ [148; 4; 0; 0]) with (a1 ++ [0; 0] ++ z1).
  assert (BA1 : Forall byte a1) by (unfold a1; apply Forall_app2; [apply bytes_lit; reflexivity|]; apply Forall_app2; [apply be16_bytes|apply bytes_lit; reflexivity]).
  assert (BZ1 : Forall byte z1) by (unfold z1; apply Forall_app2; [apply be32_bytes|]; apply Forall_app2; [apply be32_bytes|apply bytes_lit; reflexivity]).
  destruct (filled_hole a1 z1 BA1 BZ1 eq_refl ltac:(discriminate)) as (c1 & -> & Oh). cbn [obind].
  change ([70; 0; 0; 40] ++ be16 id ++ [0; 0; 1; 2] ++ be16 c1 ++ be32 (c_ip (i_conf x)) ++ be32 3758096406 ++ [148; 4; 0; 0]) with (a1 ++ be16 c1 ++ z1).
  pose (a2 := [34; 0]). pose (z2 := [0; 0; 0; 1; rec; 0; 0; 0] ++ be32 g).
  change ([34; 0; 0; 0; 0; 0; 0; 1; rec; 0; 0; 0] ++ be32 g) with (a2 ++ [0; 0] ++ z2).
  assert (BA2 : Forall byte a2) by (apply bytes_lit; reflexivity).
  assert (BZ2 : Forall byte z2) by (unfold z2; apply Forall_app2; [repeat constructor; unfold byte in *; lia|apply be32_bytes]).
  destruct (filled_hole a2 z2 BA2 BZ2 eq_refl ltac:(discriminate)) as (c2 & -> & Ob). cbn [obind].
  change ([34; 0] ++ be16 c2 ++ [0; 0; 0; 1; rec; 0; 0; 0] ++ be32 g) with (a2 ++ be16 c2 ++ z2).
  remember (a1 ++ be16 c1 ++ z1) as h eqn:EH. remember (a2 ++ be16 c2 ++ z2) as b eqn:EB.
  set (h0 := a1 ++ [0; 0] ++ z1). set (b0 := a2 ++ [0; 0] ++ z2).
  assert (LH : zlen h0 = 24) by reflexivity. assert (Lh : zlen h = zlen h0) by (rewrite EH; reflexivity).
  assert (LB : zlen b0 = 16) by reflexivity. assert (Lb : zlen b = zlen b0) by (rewrite EB; reflexivity).
  assert (Sh : forall k, k <> 10 -> k <> 11 -> 0 <= k -> zget h k = zget h0 k).
  { intros k K1 K2 K0. rewrite EH. unfold h0. assert (L1 : zlen a1 = 10) by reflexivity. destruct (Z.lt_ge_cases k 10); [rewrite !zget_app1 by lia; reflexivity|].
    rewrite !(zget_app2 a1) by lia. rewrite !zget_app2 by (rewrite ?zlen_be16; change (zlen [0; 0]) with 2; lia). reflexivity. }
  assert (Sb : forall k, 0 <= k -> k <> 2 -> k <> 3 -> zget b k = zget b0 k).
  { intros k K0 K1 K2. rewrite EB. unfold b0. assert (L1 : zlen a2 = 2) by reflexivity. destruct (Z.lt_ge_cases k 2); [rewrite !zget_app1 by lia; reflexivity|].
    rewrite !(zget_app2 a2) by lia. rewrite !zget_app2 by (rewrite ?zlen_be16; change (zlen [0; 0]) with 2; lia). reflexivity. }
  clear EH EB.
  set (eth := if i_noneth x then repeat 0 14 else [1; 0; 94; 0; 0; 22] ++ i_mac x ++ be16 2048).
  assert (LE : zlen eth = 14) by (unfold eth; destruct (i_noneth x); [reflexivity|rewrite !zlen_app, MX; reflexivity]).
  eexists. split; [reflexivity|]. set (f := eth ++ h ++ b). exists x. split; [assumption|].
  assert (GI : forall k, 0 <= k < 24 -> k <> 10 -> k <> 11 -> zget f (14 + k) = zget h0 k).
  { intros k K K1 K2. unfold f. rewrite zget_app2 by lia. rewrite LE. replace (14 + k - 14) with k by lia. rewrite zget_app1 by lia. apply Sh; lia. }
  assert (GB : forall k, 0 <= k -> k <> 2 -> k <> 3 -> zget f (38 + k) = zget b0 k).
  { intros k K K1 K2. unfold f. rewrite zget_app2 by lia. rewrite LE. rewrite zget_app2 by lia. rewrite Lh, LH. replace (38 + k - 14 - 24) with k by lia. apply Sb; lia. }
  split; [unfold f; rewrite !zlen_app; lia|]. split; [exact (GI 0 ltac:(lia) ltac:(lia) ltac:(lia))|].
  split. { unfold total. rewrite (word_ext f h0 16 2); [reflexivity|sh GI 2]. }
  split; [exact (GI 8 ltac:(lia) ltac:(lia) ltac:(lia))|]. split; [exact (GI 9 ltac:(lia) ltac:(lia) ltac:(lia))|].
  split. { unfold src. rewrite (addr_ext f h0 26 12) by sh GI 12.
    exact (addr_at_be32 12 ([70; 0; 0; 40] ++ be16 id ++ [0; 0; 1; 2; 0; 0]) (be32 3758096406 ++ [148; 4; 0; 0]) (c_ip (i_conf x)) eq_refl CX). }
  split. { unfold dst. rewrite (addr_ext f h0 30 16) by sh GI 16. reflexivity. }
  split. { unfold f. rewrite part_app_r by lia. replace (34 - zlen eth) with 20 by lia. rewrite part_app_l by lia.
    apply zget_ext; [rewrite zlen_part by lia; reflexivity|]. intros k K. rewrite zlen_part in K by lia. rewrite zget_part by lia. rewrite Sh by lia.
    assert (CK : k = 0 \/ k = 1 \/ k = 2 \/ k = 3) by lia. destruct CK as [-> | [-> | [-> | ->]]]; reflexivity. }
  split. { unfold f. rewrite part_app_r by lia. replace (14 - zlen eth) with 0 by lia. rewrite part_app_l by lia. rewrite part_all by lia. exact Oh. }
  split; [exact (GB 0 ltac:(lia) ltac:(lia) ltac:(lia))|].
  split. { rewrite (word_ext f b0 44 6); [reflexivity|sh GB 6]. }
  split; [exact (GB 8 ltac:(lia) ltac:(lia) ltac:(lia))|].
  split. { rewrite (addr_ext f b0 50 12) by sh GB 12.
    pose proof (addr_at_be32 12 [34; 0; 0; 0; 0; 0; 0; 1; rec; 0; 0; 0] [] g eq_refl HG) as X. rewrite app_nil_r in X. exact X. }
  split. { unfold f. rewrite part_app_r by lia. replace (38 - zlen eth) with 24 by lia. rewrite part_app_r by lia. replace (24 - zlen h) with 0 by lia. rewrite part_all by lia. exact Ob. }
  intros NE. unfold f, eth. rewrite NE. rewrite <- !app_assoc. split; [|split].
  - rewrite part_app_l by (change (zlen [1; 0; 94; 0; 0; 22]) with 6; lia). reflexivity.
  - rewrite part_app_r by (change (zlen [1; 0; 94; 0; 0; 22]) with 6; lia). change (6 - zlen [1; 0; 94; 0; 0; 22]) with 0. rewrite part_app_l by lia. apply part_all. lia.
  - rewrite app_assoc. apply word_at_be16; [rewrite zlen_app, MX; reflexivity|lia].
Qed.
