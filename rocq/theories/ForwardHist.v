From Verif Require Import Base ListUtil Bits Checksum ChecksumProps Route RouteProps Arp ArpProps HttpUrl Forward ForwardSpec ForwardProofs ForwardStep.
Local Ltac Zify.zify_post_hook ::= idtac.

Definition mac_for (w : world) (a : arpst) (out nh : Z) (mac : list Z) : Prop :=
  exists x, nth_error (w_ifs w) (Z.to_nat out) = Some x /\
  (i_noneth x = true \/ (is_loop w out /\ mac = i_mac x) \/ (broadcast w nh /\ mac = repeat 255 6) \/
   exists n, In n (a_nbs a) /\ n_ip n = nh /\ n_if n = out /\ n_mac n = mac).
Lemma prepare_spec w st out nh : world_ok w -> 0 <= out < zlen (w_ifs w) -> nbs_ok (a_nbs (f_arp st)) ->
  forall st1 mac evs, forward_prepare w st out nh = (st1, mac, evs) ->
  f_q st1 = f_q st /\ f_id st1 = f_id st /\ nbs_ok (a_nbs (f_arp st1)) /\
  match mac with
  | Some m => evs = [] /\ mac_ok m /\ mac_for w (f_arp st1) out nh m
  | None => snd (arp_lookup (f_arp st) out nh) = None /\ (evs = [] \/ exists g, evs = [EvArp out g])
  end.
Proof.
  intros (WI & _) Ho HN st1 mac evs. unfold forward_prepare.
  destruct (nth_error (w_ifs w) (Z.to_nat out)) as [x|] eqn:NX; [|apply nth_error_None in NX; unfold zlen in *; lia].
  assert (XO : iface_ok x) by (rewrite Forall_forall in WI; apply WI; eapply nth_error_In; exact NX). destruct XO as (MX & BX & _).
  assert (NE : is_noneth w out = i_noneth x) by (unfold is_noneth; rewrite NX; reflexivity). rewrite NE.
  destruct (i_noneth x) eqn:QN.
  { intros H. injection H as <- <- <-. split; [reflexivity|]. split; [reflexivity|]. split; [exact HN|]. split; [reflexivity|].
    split; [split; [reflexivity|]; repeat constructor; unfold byte; lia|]. exists x. auto. }
  destruct (is_loopback_if (w_lb w) out) eqn:QL.
  { intros H. injection H as <- <- <-. split; [reflexivity|]. split; [reflexivity|]. split; [exact HN|]. split; [reflexivity|].
    split; [split; assumption|]. exists x. split; [exact NX|]. right. left. split; [apply is_loop_iff; exact QL|reflexivity]. }
  destruct (ip_is_broadcast (w_confs w) nh) eqn:QB.
  { intros H. injection H as <- <- <-. split; [reflexivity|]. split; [reflexivity|]. split; [exact HN|]. split; [reflexivity|].
    split; [split; [reflexivity|]; repeat constructor; unfold byte; lia|]. exists x. split; [exact NX|]. right. right. left. split; [apply broadcast_iff; exact QB|reflexivity]. }
  destruct (arp_lookup (f_arp st) out nh) as [a m] eqn:EL. destruct (lookup_spec _ _ _ _ _ EL HN) as [HA HM].
  destruct m as [m|].
  - intros H. injection H as <- <- <-. cbn [f_q f_id f_arp]. split; [reflexivity|]. split; [reflexivity|]. split; [exact HA|]. split; [reflexivity|].
    destruct HM as [HM1 HM2]. split; [exact HM1|]. exists x. auto.
  - pose proof (request_nbs (w_ifs w) a out nh) as RN. destruct (arp_request (w_ifs w) a out nh) as [a2 r]. cbn [fst] in RN.
    intros H. injection H as <- <- <-. cbn [f_q f_id f_arp]. split; [reflexivity|]. split; [reflexivity|]. split; [rewrite RN; exact HA|].
    split; [reflexivity|]. destruct r as [g|]; [right; exists g; reflexivity|left; reflexivity].
Qed.

(** What receiving one IPv4 frame that must be relayed does. *)
Definition relay_outcome (w : world) (st : fst_) (f : list Z) (st' : fst_) (evs : list ev) (out nh : Z) : Prop :=
  (f_q st' = f_q st /\
     (evs = [] \/ exists g, evs = [EvForward out g] /\ relayed f g /\ addressed w (f_arp st') out nh g) /\
     ((forall g, w_fsend w out g = false) -> 14 + total f <= w_mtu w out -> evs <> [])) \/
  (snd (arp_lookup (f_arp st) out nh) = None /\ (evs = [] \/ exists g, evs = [EvArp out g]) /\
     queued w (f_q st) (f_q st') out nh (part f 0 (14 + total f))).

Definition outcome (w : world) (st : fst_) (i : Z) (f : list Z) (st' : fst_) (evs : list ev) : Prop :=
  (~ acceptable w i f /\ st' = st /\ evs = []) \/
  (acceptable w i f /\ for_us w f /\ st' = st /\ handed_up f evs) \/
  (acceptable w i f /\ ~ for_us w f /\ martian w i f /\ st' = st /\ evs = []) \/
  (acceptable w i f /\ ~ for_us w f /\ ~ martian w i f /\ (l2_group w i f \/ forall o nh, ~ egress w i (dst f) o nh) /\ st' = st /\ handed_up f evs) \/
  (exists out nh, forwardable w i f out nh /\ ttl f <= 1 /\ f_arp st' = f_arp st /\ f_q st' = f_q st /\
     (icmp_error f -> evs = []) /\ (evs = [] \/ exists g, evs = [EvIcmp i g] /\ time_exceeded w i f g) /\
     (~ icmp_error f -> (forall g, w_fsend w i g = false) -> 110 <= w_mtu w i -> evs <> [])) \/
  (exists out nh, forwardable w i f out nh /\ 0 <= out < zlen (w_ifs w) /\ 2 <= ttl f /\ relay_outcome w st f st' evs out nh /\ nbs_ok (a_nbs (f_arp st'))).

Lemma mac_addressed w a out nh mac x g : nth_error (w_ifs w) (Z.to_nat out) = Some x -> mac_for w a out nh mac ->
  (i_noneth x = false -> part g 0 6 = mac /\ part g 6 6 = i_mac x /\ word g 12 = 2048) -> addressed w a out nh g.
Proof.
  intros NX (x' & NX' & H) HG. assert (x' = x) by congruence. subst x'. exists x. split; [exact NX|]. intros NE. destruct (HG NE) as (G1 & G2 & G3).
  split; [exact G2|]. split; [exact G3|]. destruct H as [H|[[H1 H2]|[[H1 H2]|H]]]; [congruence|left|right; left|right; right].
  - split; [exact H1|congruence].
  - split; [exact H1|congruence].
  - destruct H as (n & N1 & N2 & N3 & N4). exists n. rewrite G1. auto.
Qed.

Lemma ip_recv_outcome w st i f : world_ok w -> 0 <= i < zlen (w_ifs w) -> Forall byte f -> nbs_ok (a_nbs (f_arp st)) ->
  exists st' evs, ip_recv w st i f = Some (st', evs) /\ outcome w st i f st' evs.
Proof.
  intros WO Hi HB HN. unfold ip_recv, outcome. destruct (accept_spec w i f HB) as (b & -> & HA). cbn [obind]. destruct b; cbn [negb].
  2:{ exists st, []. split; [reflexivity|]. left. split; [intros H; apply HA in H; discriminate|auto]. }
  assert (AC : acceptable w i f) by (apply HA; reflexivity). clear HA. pose proof (proj1 AC) as HW.
  cbv zeta. destruct (fwd_is_local w (rd32 f 30)) eqn:QL.
  { apply local_iff in QL. destruct (up_spec f HB HW) as (e & -> & HU). cbn [obind]. exists st, e. split; [reflexivity|]. right. left. auto. }
  assert (NL : ~ for_us w f) by (rewrite <- local_iff; congruence). clear QL.
  destruct (rpf_drop w i (rd32 f 26)) eqn:QR.
  { apply rpf_iff in QR; [|exact HB]. exists st, []. split; [reflexivity|]. right. right. left. auto 10. }
  assert (NR : ~ martian w i f) by (rewrite <- rpf_iff by exact HB; congruence). clear QR.
  destruct (negb (is_noneth w i) && negb (Z.land (zget f 0) 1 =? 0)) eqn:QG.
  { apply group_iff in QG; [|exact HB]. destruct (up_spec f HB HW) as (e & -> & HU). cbn [obind]. exists st, e. split; [reflexivity|]. right. right. right. left. auto 10. }
  assert (NG : ~ l2_group w i f) by (rewrite <- group_iff by exact HB; congruence). clear QG.
  rewrite rd32_addr. fold (dst f). pose proof (addr_range f 30 HB) as DR. fold (dst f) in DR.
  assert (NOWN : ~ own w (dst f)) by (intros HX; apply NL; right; right; exact HX).
  pose proof (route_spec w i (dst f) WO Hi DR NOWN) as RS. destruct (fwd_route w i (dst f)) as [[out nh]|].
  2:{ destruct (up_spec f HB HW) as (e & -> & HU). cbn [obind]. exists st, e. split; [reflexivity|]. right. right. right. left. auto 10. }
  destruct RS as [EG HO]. assert (FW : forwardable w i f out nh) by (split; [exact AC|]; auto).
  pose proof HW as (L & V & I & T & O & _).
  change (rd16 f 16) with (total f). rewrite mread_part by lia. cbn [obind]. destruct (Z.leb_spec (zget f 22) 1) as [TT|TT].
  { destruct (ttl_exceeded_spec w st i f WO Hi HB HW) as (st' & evs & E & R1 & R2 & R3 & R4 & R5). exists st', evs. split; [exact E|].
    right. right. right. right. left. exists out, nh. split; [exact FW|]. split; [exact TT|]. auto. }
  destruct (forward_prepare w st out nh) as [[st1 mac] evs] eqn:EP. destruct (prepare_spec w st out nh WO HO HN _ _ _ EP) as (P1 & P2 & P3 & P4).
  destruct mac as [mac|].
  - destruct P4 as (-> & MO & MF). pose proof MF as (x & NX & _).
    destruct (relay_spec w f out x mac WO HB HW ltac:(unfold ttl; lia) MO NX) as (g1 & E1 & R1 & R2). rewrite E1. cbn [obind app].
    exists st1, (forward_packet w out g1 mac). split; [reflexivity|]. right. right. right. right. right. exists out, nh. split; [exact FW|]. split; [exact HO|]. split; [unfold ttl; lia|].
    split; [|exact P3]. left. split; [exact P1|]. split; [|exact R2]. destruct R1 as [R1|(g & R1 & RG & RA)]; [left; exact R1|right]. exists g. split; [exact R1|]. split; [exact RG|].
    eapply mac_addressed; eassumption.
  - destruct P4 as (P4 & P5). destruct WO as (W1 & W2 & W3 & W4).
    assert (LP : zlen (part f 0 (14 + total f)) = 14 + total f) by (apply zlen_part; lia).
    destruct (queue_spec w (f_q st1) out nh (part f 0 (14 + total f)) W4 ltac:(lia) ltac:(lia)) as (q' & -> & HQ). cbn [obind].
    eexists _, evs. split; [reflexivity|]. right. right. right. right. right. exists out, nh. split; [exact FW|]. split; [exact HO|]. split; [unfold ttl; lia|].
    split; [|exact P3]. right. split; [exact P4|]. split; [exact P5|]. cbn [f_q]. rewrite <- P1. exact HQ.
Qed.

(** ** Histories *)
Definition qok (os : list fop) (e : qent) : Prop :=
  q_dest e <> 0 -> exists w i f, In (FIp w i f) os /\ forwardable w i f (q_if e) (q_dest e) /\ 2 <= ttl f /\ Forall byte f /\
     q_frame e = part f 0 (14 + total f).
Definition FInv (os : list fop) (st : fst_) : Prop :=
  Forall (qok os) (f_q st) /\ length (f_q st) = 4%nat /\ nbs_ok (a_nbs (f_arp st)).
Definition op_world (o : fop) : option world := match o with FIp w _ _ | FArp w _ _ _ => Some w | _ => None end.
(** Every packet relayed by a step is a packet received before (or in this step) that may be relayed. *)
Definition relay_ok (os : list fop) (w : world) (st' : fst_) (evs : list ev) : Prop :=
  forall out g, In (EvForward out g) evs -> exists w0 i f nh, In (FIp w0 i f) os /\ forwardable w0 i f out nh /\ relayed f g /\ addressed w (f_arp st') out nh g.

Lemma qok_ext os o e : qok os e -> qok (os ++ [o]) e.
Proof. intros H HD. destruct (H HD) as (w & i & f & HI & R). exists w, i, f. split; [apply in_or_app; left; exact HI|exact R]. Qed.
Lemma qok_ext_all os o q : Forall (qok os) q -> Forall (qok (os ++ [o])) q.
Proof. apply Forall_impl. intros e. apply qok_ext. Qed.
Lemma qok_zero os i fr : qok os (mkQ 0 i fr).
Proof. intros H. cbn in H. lia. Qed.
Lemma queued_inv P w q q' i d f : queued w q q' i d f -> Forall P q -> P (mkQ d i f) -> Forall P q' /\ length q' = length q.
Proof.
  intros [(-> & _)|(j & old & _ & _ & ->)] HF HP; [auto|]. split; [|apply set_nth_length].
  apply Forall_forall. intros e HI. apply set_nth_in in HI. destruct HI as [-> |HI]; [exact HP|]. rewrite Forall_forall in HF. apply HF. exact HI.
Qed.

Lemma wf_part_ttl f : Forall byte f -> wellformed f -> rd1 (part f 0 (14 + total f)) 22 = Some (ttl f).
Proof.
  intros HB (L & V & I & T & O & _). rewrite rd1_in by (rewrite zlen_part by lia; lia). f_equal. rewrite zget_part by lia. reflexivity.
Qed.

Lemma flush_inv os w a i ip mac x : world_ok w -> nth_error (w_ifs w) (Z.to_nat i) = Some x -> mac_ok mac -> mac_for w a i ip mac -> ip <> 0 ->
  forall q, Forall (qok os) q -> exists q' evs, flush_loop w q i ip mac = Some (q', evs) /\ Forall (qok os) q' /\ length q' = length q /\
   (forall out g, In (EvForward out g) evs -> exists w0 j f nh, In (FIp w0 j f) os /\ forwardable w0 j f out nh /\ relayed f g /\ addressed w a out nh g) /\
   (forall e, In e evs -> exists g, e = EvForward i g).
Proof.
  intros WO NX MO MF IP0. induction q as [|e q IH]; intros HQ; cbn [flush_loop].
  - exists [], []. split; [reflexivity|]. split; [constructor|]. split; [reflexivity|]. split; [intros out g []|intros e []].
  - inversion HQ as [|? ? HE HR]; subst. destruct (IH HR) as (r & evs & -> & I1 & I2 & I3 & I4). cbn [obind].
    assert (SAME : forall e', qok os e' -> exists q' evs', Some (e' :: r, evs) = Some (q', evs') /\ Forall (qok os) q' /\ length q' = length (e :: q) /\
       (forall out g, In (EvForward out g) evs' -> exists w0 j f nh, In (FIp w0 j f) os /\ forwardable w0 j f out nh /\ relayed f g /\ addressed w a out nh g) /\
       (forall e, In e evs' -> exists g, e = EvForward i g)).
    { intros e' He'. exists (e' :: r), evs. split; [reflexivity|]. split; [constructor; assumption|]. split; [cbn; lia|]. auto. }
    destruct (negb (q_dest e =? ip) || negb (q_if e =? i)) eqn:Q; [apply SAME; exact HE|].
    assert (E1 : q_dest e = ip) by lia. assert (E2 : q_if e = i) by lia.
    destruct (zlen (q_frame e) =? 0); [apply SAME; apply qok_zero|]. destruct (w_mtu w i <? zlen (q_frame e)); [apply SAME; apply qok_zero|].
    destruct (HE ltac:(lia)) as (w0 & j & f & HI & FW & TT & HB & EF). pose proof (proj1 (proj1 FW)) as HW. rewrite EF, wf_part_ttl by assumption. cbn [obind].
    destruct (Z.leb_spec (ttl f) 1); [lia|].
    destruct (relay_spec w f i x mac WO HB HW TT MO NX) as (g1 & Eg & R1 & _). rewrite Eg. cbn [obind].
    eexists _, _. split; [reflexivity|]. split; [constructor; [apply qok_zero|exact I1]|]. split; [cbn; lia|].
    rewrite E1, E2 in FW. destruct R1 as [-> |(g & -> & RG & RA)]; cbn [app]; [split; [exact I3|exact I4]|]. split.
    + intros out g' [HX|HX]; [|apply I3; exact HX]. injection HX as <- <-. exists w0, j, f, ip. split; [exact HI|]. split; [exact FW|]. split; [exact RG|].
      eapply mac_addressed; eassumption.
    + intros e' [<- |HX]; [exists g; reflexivity|apply I4; exact HX].
Qed.

Lemma stores_spec ifs st i f dad ip : arp_stores ifs st i f dad = Some ip -> ip <> 0.
Proof.
  unfold arp_stores. destruct (zlen f <? 42); [discriminate|]. destruct (nth_error ifs (Z.to_nat i)) as [x|]; [|discriminate].
  destruct (i_noneth x); [discriminate|]. cbv zeta.
  match goal with |- context [if ?c then None else _] => destruct c end; [discriminate|].
  match goal with |- context [if ?c then None else _] => destruct c end; [discriminate|].
  match goal with |- context [if ?c then None else _] => destruct c end; [discriminate|].
  match goal with |- context [if ?c then None else _] => destruct c end; [discriminate|].
  match goal with |- context [if ?c then None else _] => destruct c eqn:Q end; [discriminate|].
  match goal with |- context [if ?c then Some _ else _] => destruct c end; [|discriminate]. intros H. injection H as <-. lia.
Qed.

Lemma fstep_inv os st o : FInv os st -> fop_ok o -> exists st' evs, fstep st o = Some (st', evs) /\ FInv (os ++ [o]) st' /\
  match op_world o with Some w => relay_ok (os ++ [o]) w st' evs | None => evs = [] end.
Proof.
  intros (Q1 & Q2 & Q3) HO. destruct o as [w i f|w i f dad|now|i]; cbn [fstep op_world fop_ok] in *.
  - destruct HO as (WO & Hi & HB). destruct (ip_recv_outcome w st i f WO Hi HB Q3) as (st' & evs & E & OC). exists st', evs. split; [exact E|].
    assert (SAME : st' = st -> FInv (os ++ [FIp w i f]) st') by (intros ->; split; [apply qok_ext_all; exact Q1|split; assumption]).
    assert (UP : handed_up f evs -> relay_ok (os ++ [FIp w i f]) w st' evs).
    { intros [(_ & _ & ->)|(g & -> & _)] out g'; [intros []|intros [HX|[]]; discriminate]. }
    assert (NONE : evs = [] -> relay_ok (os ++ [FIp w i f]) w st' evs) by (intros -> out g' []).
    destruct OC as [(_ & OS & OE)|[(_ & _ & OS & OE)|[(_ & _ & _ & OS & OE)|[(_ & _ & _ & _ & OS & OE)|[OC|OC]]]]]; auto.
    + destruct OC as (out & nh & _ & _ & O1 & O2 & _ & O3 & _). split.
      * split; [rewrite O2; apply qok_ext_all; exact Q1|]. rewrite O1, O2. auto.
      * destruct O3 as [O3|(g & -> & _)]; [auto|]. intros out' g' [HX|[]]. discriminate.
    + destruct OC as (out & nh & FW & HO & TT & RO & HN). destruct RO as [(O1 & O2 & _)|(_ & O2 & O3)].
      * split; [split; [rewrite O1; apply qok_ext_all; exact Q1|rewrite O1; auto]|]. destruct O2 as [O2|(g & -> & RG & AD)]; [auto|].
        intros out' g' [HX|[]]. injection HX as <- <-. exists w, i, f, nh. split; [apply in_or_app; right; left; reflexivity|]. auto.
      * destruct (queued_inv (qok (os ++ [FIp w i f])) _ _ _ _ _ _ O3) as [K1 K2].
        -- apply qok_ext_all. exact Q1.
        -- intros _. cbn [q_if q_dest q_frame]. exists w, i, f. split; [apply in_or_app; right; left; reflexivity|]. auto.
        -- split; [split; [exact K1|split; [lia|exact HN]]|]. destruct O2 as [O2|(g & ->)]; [auto|]. intros out' g' [HX|[]]. discriminate.
  - destruct HO as (WO & Hi & HB). unfold arp_recv_fwd. pose proof (arp_recv_nbs (w_ifs w) (f_arp st) i f dad HB Q3) as AN.
    destruct (arp_recv (w_ifs w) (f_arp st) i f dad) as [a out0]. cbn [fst] in AN.
    assert (NONE : forall st', f_q st' = f_q st -> nbs_ok (a_nbs (f_arp st')) -> exists st1 evs, Some (st', @nil ev) = Some (st1, evs) /\ FInv (os ++ [FArp w i f dad]) st1 /\ relay_ok (os ++ [FArp w i f dad]) w st1 evs).
    { intros st' E1 E2. exists st', []. split; [reflexivity|]. split; [split; [rewrite E1; apply qok_ext_all; exact Q1|split; [rewrite E1; exact Q2|exact E2]]|]. intros o g []. }
    destruct (arp_stores (w_ifs w) (f_arp st) i f dad) as [ip|] eqn:ES; [|apply NONE; [reflexivity|exact AN]].
    unfold arp_flush_pending. cbn [f_arp f_q f_id]. destruct (arp_lookup a i ip) as [a2 m] eqn:EL.
    destruct (lookup_spec _ _ _ _ _ EL AN) as [HA HM]. destruct m as [m|]; [|apply NONE; [reflexivity|exact HA]].
    destruct HM as [MO MN]. destruct (nth_error (w_ifs w) (Z.to_nat i)) as [x|] eqn:NX; [|apply nth_error_None in NX; unfold zlen in *; lia].
    destruct (flush_inv (os ++ [FArp w i f dad]) w a2 i ip m x WO NX MO) with (q := f_q st) as (q' & evs & EF & F1 & F2 & F3 & _).
    + exists x. auto.
    + eapply stores_spec. exact ES.
    + apply qok_ext_all. exact Q1.
    + rewrite EF. cbn [obind]. eexists _, evs. split; [reflexivity|]. split; [split; [exact F1|split; [cbn [f_q]; lia|exact HA]]|]. exact F3.
  - eexists _, []. split; [reflexivity|]. split; [|reflexivity]. split; [apply qok_ext_all; exact Q1|split; [exact Q2|exact Q3]].
  - eexists _, []. split; [reflexivity|]. split; [|reflexivity]. split; [|split].
    + cbn [f_q]. unfold queue_purge. apply Forall_forall. intros e HI. apply in_map_iff in HI. destruct HI as (e0 & <- & HI). destruct (q_if e0 =? u8 i); [apply qok_zero|].
      apply qok_ext. rewrite Forall_forall in Q1. apply Q1. exact HI.
    + cbn [f_q]. unfold queue_purge. rewrite map_length. exact Q2.
    + cbn [f_arp arp_purge a_nbs]. unfold nbs_ok. apply Forall_forall. intros n HI. apply in_map_iff in HI. destruct HI as (n0 & <- & HI).
      destruct (n_if n0 =? u8 i); [apply nb0_ok|]. unfold nbs_ok in Q3. rewrite Forall_forall in Q3. apply Q3. exact HI.
Qed.

Lemma frun_app st os1 os2 : frun st (os1 ++ os2) = (do (s1, e1) <- frun st os1; do (s2, e2) <- frun s1 os2; Some (s2, e1 ++ e2)).
Proof.
  revert st. induction os1 as [|o os1 IH]; intros st; cbn [app frun].
  - cbn [obind]. destruct (frun st os2) as [[s2 e2]|]; reflexivity.
  - destruct (fstep st o) as [[s1 e1]|]; [|reflexivity]. cbn [obind]. rewrite IH. destruct (frun s1 os1) as [[s2 e2]|]; [|reflexivity]. cbn [obind].
    destruct (frun s2 os2) as [[s3 e3]|]; reflexivity.
Qed.
Lemma FInv_init : FInv [] fwd_init.
Proof.
  split; [|split; [reflexivity|]].
  - cbn [fwd_init f_q]. apply Forall_forall. intros e HI. apply repeat_spec in HI. subst e. apply qok_zero.
  - cbn [fwd_init f_arp arp_init a_nbs]. apply Forall_forall. intros n HI. apply repeat_spec in HI. subst n. apply nb0_ok.
Qed.
Lemma frun_inv : forall os, Forall fop_ok os -> exists st es, frun fwd_init os = Some (st, es) /\ FInv os st.
Proof.
  induction os as [|o os IH] using rev_ind; intros HO.
  - exists fwd_init, []. split; [reflexivity|apply FInv_init].
  - apply Forall_app in HO as [H1 H2]. inversion H2 as [|? ? H3 _]; subst. destruct (IH H1) as (st & es & E & HI).
    destruct (fstep_inv os st o HI H3) as (st' & evs & E2 & HI2 & _). exists st', (es ++ [evs]). split; [|exact HI2].
    rewrite frun_app, E. cbn [obind frun]. rewrite E2. reflexivity.
Qed.
Lemma reached_inv os st : reached os st -> FInv os st.
Proof. intros (HO & es & E). destruct (frun_inv os HO) as (st' & es' & E' & HI). assert (st' = st) by congruence. subst. exact HI. Qed.
