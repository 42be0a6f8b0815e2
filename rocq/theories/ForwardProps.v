(** C27: IPv4 reception and forwarding. *)
From Verif Require Import Base ListUtil Bits Checksum ChecksumProps Route RouteProps Arp ArpProps HttpUrl Forward ForwardSpec ForwardProofs ForwardStep ForwardHist.
Local Ltac Zify.zify_post_hook ::= idtac.

(** No sequence of received frames, whatever their bytes, makes the input path
    read or write outside a buffer. *)
Theorem ip_input_total : forall os, Forall fop_ok os -> exists st es, frun fwd_init os = Some (st, es).
Proof. intros os H. destruct (frun_inv os H) as (st & es & E & _). exists st, es. exact E. Qed.
Print Assumptions ip_input_total.

(** Whatever is relayed, at once or after waiting for ARP, is a packet that was
    received and may be relayed, sent through another interface, with its TTL one
    less and a correct checksum, otherwise unchanged, to the next hop's address. *)
Theorem ip_forward_sound : forall os st o st' evs, reached os st -> fop_ok o -> fstep st o = Some (st', evs) ->
  forall out g, In (EvForward out g) evs ->
  exists w0 i f nh w, In (FIp w0 i f) (os ++ [o]) /\ forwardable w0 i f out nh /\ out <> i /\ relayed f g /\
    op_world o = Some w /\ addressed w (f_arp st') out nh g.
Proof.
  intros os st o st' evs HR HO E out g HI. destruct (fstep_inv os st o (reached_inv _ _ HR) HO) as (st1 & evs1 & E1 & _ & H).
  assert (st1 = st' /\ evs1 = evs) as [-> ->] by (rewrite E in E1; injection E1 as -> ->; auto).
  destruct (op_world o) as [w|]; [|subst; destruct HI]. destruct (H out g HI) as (w0 & i & f & nh & A & B & C & D).
  exists w0, i, f, nh, w. split; [exact A|]. split; [exact B|]. split; [|split; [exact C|split; [reflexivity|exact D]]].
  destruct B as (_ & _ & _ & _ & EG & _). exact EG.
Qed.
Print Assumptions ip_forward_sound.

(** A packet waits in [st] for the link-layer address of [nh] on interface [out]. *)
Definition waiting (st : fst_) (out nh : Z) (f : list Z) : Prop := In (mkQ nh out (part f 0 (14 + total f))) (f_q st).
(** The queue has no place for another next hop. *)
Definition queue_full (st : fst_) : Prop := forall e, In e (f_q st) -> q_dest e <> 0.

Lemma recv_step os st w i f : reached os st -> fop_ok (FIp w i f) -> exists st' evs, fstep st (FIp w i f) = Some (st', evs) /\ outcome w st i f st' evs.
Proof.
  intros HR (WO & Hi & HB). destruct (reached_inv _ _ HR) as (_ & _ & HN). cbn [fstep]. apply ip_recv_outcome; assumption.
Qed.
Ltac recv_cases os st w i f st' evs HR HO E :=
  destruct (recv_step os st w i f HR HO) as (st1 & evs1 & E1 & OC);
  assert (st1 = st' /\ evs1 = evs) as [-> ->] by (rewrite E in E1; injection E1 as -> ->; auto); clear E1.

(** A relayable packet with TTL above 1 that no filter rejects is relayed at once,
    or it waits for ARP (a request being sent unless one was sent just before), or
    there is a reason: it exceeds the MTU of the outgoing link, or other next hops
    occupy the whole queue. *)
Theorem ip_forward_complete : forall os st w i f st' evs, reached os st -> fop_ok (FIp w i f) ->
  fstep st (FIp w i f) = Some (st', evs) -> (exists out nh, forwardable w i f out nh) -> 2 <= ttl f ->
  (forall o g, w_fsend w o g = false) ->
  exists out nh, forwardable w i f out nh /\
   ((exists g, evs = [EvForward out g] /\ relayed f g /\ addressed w (f_arp st') out nh g) \/
    (waiting st' out nh f /\ (evs = [] \/ exists g, evs = [EvArp out g])) \/
    w_mtu w out < 14 + total f \/
    (forall e, In e (f_q st) -> q_dest e <> 0 /\ ~ (q_dest e = nh /\ q_if e = out))).
Proof.
  intros os st w i f st' evs HR HO E (out0 & nh0 & FW) TT NF0. pose proof HO as (WO & Hi & HB). recv_cases os st w i f st' evs HR HO E.
  pose proof FW as (AC & NF & NM & NG & EG).
  destruct OC as [(A & _)|[(_ & A & _)|[(_ & _ & A & _)|[(_ & _ & _ & A & _)|[OC|OC]]]]]; try contradiction.
  - destruct A as [A|A]; [contradiction|]. destruct (A _ _ EG).
  - destruct OC as (o & n & _ & T2 & _). lia.
  - destruct OC as (out & nh & FW' & HOut & _ & RO & _). exists out, nh. split; [exact FW'|].
    assert (LP : zlen (part f 0 (14 + total f)) = 14 + total f).
    { destruct AC as ((L1 & V & I & T & _) & _). apply zlen_part; lia. }
    destruct RO as [(_ & R1 & R2)|(_ & R1 & R2)].
    + destruct R1 as [R1|R1]; [|left; exact R1]. right. right. left. destruct (Z.lt_ge_cases (w_mtu w out) (14 + total f)) as [C|C]; [exact C|].
      destruct (R2 (NF0 out) C R1).
    + destruct R2 as [(_ & [R2|R2])|(j & old & N & _ & R2)].
      * right. right. left. lia.
      * right. right. right. exact R2.
      * right. left. split; [|exact R1]. unfold waiting. rewrite R2. apply nth_error_In with j. rewrite set_nth_nth_error.
        assert (j < length (f_q st))%nat by (apply nth_error_Some; congruence). rewrite Nat.eqb_refl. destruct (Nat.ltb_spec j (length (f_q st))); [reflexivity|lia].
Qed.
Print Assumptions ip_forward_complete.

(** A packet whose TTL runs out is never relayed; its source is told with an ICMP
    time exceeded message, except when it is itself an ICMP error message. *)
Theorem ip_ttl_expired : forall os st w i f st' evs, reached os st -> fop_ok (FIp w i f) ->
  fstep st (FIp w i f) = Some (st', evs) -> (exists out nh, forwardable w i f out nh) -> ttl f <= 1 ->
  (evs = [] \/ exists g, evs = [EvIcmp i g] /\ time_exceeded w i f g) /\
  (icmp_error f -> evs = []) /\
  (~ icmp_error f -> (forall g, w_fsend w i g = false) -> 110 <= w_mtu w i -> exists g, evs = [EvIcmp i g]) /\
  f_q st' = f_q st.
Proof.
  intros os st w i f st' evs HR HO E (out0 & nh0 & FW) TT. recv_cases os st w i f st' evs HR HO E.
  pose proof FW as (AC & NF & NM & NG & EG).
  destruct OC as [(A & _)|[(_ & A & _)|[(_ & _ & A & _)|[(_ & _ & _ & A & _)|[OC|OC]]]]]; try contradiction.
  - destruct A as [A|A]; [contradiction|]. destruct (A _ _ EG).
  - destruct OC as (o & n & _ & _ & _ & R2 & R3 & R4 & R5). split; [exact R4|]. split; [exact R3|]. split; [|exact R2].
    intros H1 H2 H3. specialize (R5 H1 H2 H3). destruct R4 as [R4|(g & R4 & _)]; [contradiction|]. exists g. exact R4.
  - destruct OC as (o & n & _ & _ & T2 & _). lia.
Qed.
Print Assumptions ip_ttl_expired.

(** ICMP time exceeded messages are only ever sent for such packets. *)
Theorem ip_time_exceeded_sound : forall os st o st' evs, reached os st -> fop_ok o -> fstep st o = Some (st', evs) ->
  forall j g, In (EvIcmp j g) evs -> exists w f out nh, o = FIp w j f /\ forwardable w j f out nh /\ ttl f <= 1 /\
    ~ icmp_error f /\ time_exceeded w j f g /\ evs = [EvIcmp j g].
Proof.
  intros os st o st' evs HR HO E j g HI. destruct o as [w i f|w i f dad|now|i].
  - recv_cases os st w i f st' evs HR HO E.
    assert (UP : handed_up f evs -> False) by (intros [(_ & _ & ->)|(g' & -> & _)]; [destruct HI|destruct HI as [HX|[]]; discriminate]).
    destruct OC as [(_ & _ & ->)|[(_ & _ & _ & U)|[(_ & _ & _ & _ & ->)|[(_ & _ & _ & _ & _ & U)|[OC|OC]]]]]; try (destruct HI; fail); try (destruct (UP U); fail).
    + destruct OC as (out & nh & FW & TT & _ & _ & R3 & R4 & _). destruct R4 as [-> |(g' & -> & RT)]; [destruct HI|]. destruct HI as [HX|[]]. injection HX as <- <-.
      exists w, f, out, nh. split; [reflexivity|]. split; [exact FW|]. split; [exact TT|]. split; [intros HX; specialize (R3 HX); discriminate|]. auto.
    + destruct OC as (out & nh & _ & _ & _ & RO & _). exfalso. destruct RO as [(_ & [-> |(g' & -> & _)] & _)|(_ & [-> |(g' & ->)] & _)]; cbn [In] in HI; intuition discriminate.
  - exfalso. destruct HO as (WO & Hi & HB). destruct (reached_inv _ _ HR) as (Q1 & Q2 & Q3). cbn [fstep] in E. unfold arp_recv_fwd in E.
    pose proof (arp_recv_nbs (w_ifs w) (f_arp st) i f dad HB Q3) as AN.
    destruct (arp_recv (w_ifs w) (f_arp st) i f dad) as [a out0]. cbn [fst] in AN.
    destruct (arp_stores (w_ifs w) (f_arp st) i f dad) as [ip|] eqn:ES; [|injection E as <- <-; destruct HI].
    unfold arp_flush_pending in E. cbn [f_arp f_q f_id] in E. destruct (arp_lookup a i ip) as [a2 m] eqn:EL.
    destruct (lookup_spec _ _ _ _ _ EL AN) as [HA HM]. destruct m as [m|]; [|injection E as <- <-; destruct HI].
    destruct HM as [MO MN]. destruct (nth_error (w_ifs w) (Z.to_nat i)) as [x|] eqn:NX; [|apply nth_error_None in NX; unfold zlen in *; lia].
    destruct (flush_inv os w a2 i ip m x WO NX MO) with (q := f_q st) as (q' & evs' & EF & _ & _ & _ & F4).
    + exists x. auto.
    + eapply stores_spec. exact ES.
    + exact Q1.
    + rewrite EF in E. cbn [obind] in E. injection E as <- <-. destruct (F4 _ HI) as (g' & HX). discriminate.
  - cbn [fstep] in E. injection E as <- <-. destruct HI.
  - cbn [fstep] in E. injection E as <- <-. destruct HI.
Qed.
Print Assumptions ip_time_exceeded_sound.

(** What reaches TCP, UDP, ICMP or IGMP: an acceptable packet, not a martian one
    unless it is for this host, without its options, otherwise unchanged. *)
Theorem ip_deliver_sound : forall os st o st' evs, reached os st -> fop_ok o -> fstep st o = Some (st', evs) ->
  forall g, In (EvUp g) evs -> exists w i f, o = FIp w i f /\ acceptable w i f /\ delivered f g /\ evs = [EvUp g] /\
    (for_us w f \/ (~ martian w i f /\ (l2_group w i f \/ forall out nh, ~ egress w i (dst f) out nh))) /\ st' = st.
Proof.
  intros os st o st' evs HR HO E g HI. destruct o as [w i f|w i f dad|now|i].
  - recv_cases os st w i f st' evs HR HO E. exists w, i, f. split; [reflexivity|].
    assert (UP : handed_up f evs -> delivered f g /\ evs = [EvUp g]).
    { intros [(_ & _ & ->)|(g' & -> & D)]; [destruct HI|]. destruct HI as [HX|[]]. injection HX as <-. auto. }
    destruct OC as [(_ & _ & ->)|[(A & B & S & U)|[(_ & _ & _ & _ & ->)|[(A & B & C & D & S & U)|[OC|OC]]]]]; try (destruct HI; fail).
    + destruct (UP U). auto 10.
    + destruct (UP U). split; [exact A|]. auto 10.
    + destruct OC as (out & nh & _ & _ & _ & _ & _ & [-> |(g' & -> & _)] & _); [destruct HI|]. destruct HI as [HX|[]]. discriminate.
    + destruct OC as (out & nh & _ & _ & _ & RO & _). exfalso. destruct RO as [(_ & [-> |(g' & -> & _)] & _)|(_ & [-> |(g' & ->)] & _)]; cbn [In] in HI; intuition discriminate.
  - exfalso. destruct HO as (WO & Hi & HB). destruct (reached_inv _ _ HR) as (Q1 & Q2 & Q3). cbn [fstep] in E. unfold arp_recv_fwd in E.
    pose proof (arp_recv_nbs (w_ifs w) (f_arp st) i f dad HB Q3) as AN.
    destruct (arp_recv (w_ifs w) (f_arp st) i f dad) as [a out0]. cbn [fst] in AN.
    destruct (arp_stores (w_ifs w) (f_arp st) i f dad) as [ip|] eqn:ES; [|injection E as <- <-; destruct HI].
    unfold arp_flush_pending in E. cbn [f_arp f_q f_id] in E. destruct (arp_lookup a i ip) as [a2 m] eqn:EL.
    destruct (lookup_spec _ _ _ _ _ EL AN) as [HA HM]. destruct m as [m|]; [|injection E as <- <-; destruct HI].
    destruct HM as [MO MN]. destruct (nth_error (w_ifs w) (Z.to_nat i)) as [x|] eqn:NX; [|apply nth_error_None in NX; unfold zlen in *; lia].
    destruct (flush_inv os w a2 i ip m x WO NX MO) with (q := f_q st) as (q' & evs' & EF & _ & _ & _ & F4).
    + exists x. auto.
    + eapply stores_spec. exact ES.
    + exact Q1.
    + rewrite EF in E. cbn [obind] in E. injection E as <- <-. destruct (F4 _ HI) as (g' & HX). discriminate.
  - cbn [fstep] in E. injection E as <- <-. destruct HI.
  - cbn [fstep] in E. injection E as <- <-. destruct HI.
Qed.
Print Assumptions ip_deliver_sound.

(** Every acceptable packet for this host reaches the transport protocols (one with
    options only if the frame is at most 1536 bytes long). *)
Theorem ip_deliver_complete : forall os st w i f st' evs, reached os st -> fop_ok (FIp w i f) ->
  fstep st (FIp w i f) = Some (st', evs) -> acceptable w i f -> for_us w f -> ihl f = 20 \/ zlen f <= 1536 ->
  exists g, evs = [EvUp g] /\ delivered f g /\ st' = st.
Proof.
  intros os st w i f st' evs HR HO E AC FU HL. recv_cases os st w i f st' evs HR HO E.
  destruct OC as [(A & _)|[(_ & _ & S & U)|[(_ & A & _)|[(_ & A & _)|[OC|OC]]]]]; try contradiction.
  - destruct U as [(U1 & U2 & _)|(g & U1 & U2)]; [lia|]. exists g. auto.
  - destruct OC as (out & nh & (_ & NF & _) & _). contradiction.
  - destruct OC as (out & nh & (_ & NF & _) & _). contradiction.
Qed.
Print Assumptions ip_deliver_complete.

(** A packet that is not acceptable, and a martian one that is not for this host,
    has no effect whatsoever. *)
Theorem ip_reject_silent : forall os st w i f st' evs, reached os st -> fop_ok (FIp w i f) ->
  fstep st (FIp w i f) = Some (st', evs) -> ~ acceptable w i f \/ (~ for_us w f /\ martian w i f) -> st' = st /\ evs = [].
Proof.
  intros os st w i f st' evs HR HO E H. recv_cases os st w i f st' evs HR HO E.
  destruct OC as [(_ & A & B)|[(A & B & _)|[(_ & _ & _ & A & B)|[(A & B & C & _)|[OC|OC]]]]]; auto; try tauto.
  - destruct OC as (out & nh & (A & B & C & _) & _). tauto.
  - destruct OC as (out & nh & (A & B & C & _) & _). tauto.
Qed.
Print Assumptions ip_reject_silent.

(** ** The answer to an ARP request releases the packet that waits for it. *)
Lemma store_slot_first l i ip : forall k s, (exists n, In n l /\ nb_match n i ip = true) ->
  exists j n, nth_error l j = Some n /\ nb_match n i ip = true /\ (forall j' m, (j' < j)%nat -> nth_error l j' = Some m -> nb_match m i ip = false) /\
    store_slot l i ip k s = Some (k + j)%nat.
Proof.
  induction l as [|a l IH]; intros k s (n & HI & HM); [destruct HI|]. cbn [store_slot]. destruct (nb_match a i ip) eqn:Q.
  - exists 0%nat, a. split; [reflexivity|]. split; [exact Q|]. split; [intros; lia|]. f_equal. lia.
  - destruct HI as [<- |HI]; [congruence|]. destruct (IH (S k) (match s with None => if n_ip a =? 0 then Some k else None | Some _ => s end)) as (j & m & J1 & J2 & J3 & J4); [exists n; auto|].
    exists (S j), m. split; [exact J1|]. split; [exact J2|]. split; [|rewrite J4; f_equal; lia].
    intros [|j'] m' HL HN; cbn in HN; [congruence|]. apply (J3 j'); [lia|exact HN].
Qed.
Lemma index_first l i ip now : forall j n, nth_error l j = Some n -> nb_match n i ip = true -> n_ts n = now ->
  (forall j' m, (j' < j)%nat -> nth_error l j' = Some m -> nb_match m i ip = false) -> snd (arp_neighbor_index l i ip now) = Some (n_mac n).
Proof.
  induction l as [|a l IH]; intros [|j] n HN HM HT HF; cbn in HN; try discriminate; cbn [arp_neighbor_index].
  - injection HN as ->. rewrite HM, HT. replace ((now <=? now) && (120000 <? now - now)) with false by lia. reflexivity.
  - rewrite (HF 0%nat a) by (lia || reflexivity). specialize (IH j n HN HM HT).
    destruct (arp_neighbor_index l i ip now) as [r o]. cbn [snd] in *. apply IH. intros j' m HL HX. apply (HF (S j')); [lia|exact HX].
Qed.
Lemma stored_found l i ip mac now : l <> [] -> 0 <= i < 256 -> snd (arp_neighbor_index (arp_store_neighbor l i ip mac now) i ip now) = Some mac.
Proof.
  intros NE Hi. assert (U : u8 i = i) by (unfold u8; apply Z.mod_small; lia).
  assert (M : nb_match (mkNb ip (u8 i) mac now) i ip = true) by (apply nb_match_iff; cbn; auto).
  assert (D : (exists n, In n l /\ nb_match n i ip = true) \/ forall n, In n l -> nb_match n i ip = false).
  { clear. induction l as [|a l IH]; [right; intros n []|]. destruct (nb_match a i ip) eqn:Q; [left; exists a; cbn; auto|].
    destruct IH as [(n & A & B)|IH]; [left; exists n; cbn; auto|right]. intros n [<- |HI]; auto. }
  destruct D as [D|D].
  - unfold arp_store_neighbor. destruct (store_slot_first l i ip 0 None D) as (j & n & J1 & J2 & J3 & J4). rewrite J4. cbn [Nat.add].
    assert (JL : (j < length l)%nat) by (apply nth_error_Some; congruence).
    erewrite (index_first _ i ip now j (mkNb ip (u8 i) mac now)); [reflexivity| |exact M|reflexivity|].
    + rewrite set_nth_nth_error, Nat.eqb_refl. destruct (Nat.ltb_spec j (length l)); [reflexivity|lia].
    + intros j' m HL. rewrite set_nth_nth_error. destruct (Nat.eqb_spec j j'); [lia|]. apply J3. exact HL.
  - destruct (store_spec l i ip mac now NE) as (j & old & J1 & -> & _). assert (JL : (j < length l)%nat) by (apply nth_error_Some; congruence).
    erewrite (index_first _ i ip now j (mkNb ip (u8 i) mac now)); [reflexivity| |exact M|reflexivity|].
    + rewrite set_nth_nth_error, Nat.eqb_refl. destruct (Nat.ltb_spec j (length l)); [reflexivity|lia].
    + intros j' m HL. rewrite set_nth_nth_error. destruct (Nat.eqb_spec j j'); [lia|]. intros HX. apply D. eapply nth_error_In. exact HX.
Qed.
Lemma pending_match_fresh l i ip now : 0 <= i < 256 -> (exists p, In p l /\ p_ip p = ip /\ p_if p = i /\ ip <> 0 /\ (now < p_ts p \/ now - p_ts p <= 5000)) ->
  snd (arp_pending_match l i ip now) = true.
Proof.
  intros Hi. assert (U : u8 i = i) by (unfold u8; apply Z.mod_small; lia). induction l as [|q l IH]; intros (p & HI & P1 & P2 & P3 & P4); [destruct HI|]. cbn [arp_pending_match].
  destruct HI as [-> |HI].
  - destruct (Z.eqb_spec (p_ip p) 0); [lia|]. replace ((p_ts p <=? now) && (5000 <? now - p_ts p)) with false by lia. rewrite U.
    replace ((p_ip p =? ip) && (p_if p =? i)) with true by lia. reflexivity.
  - assert (IT : snd (arp_pending_match l i ip now) = true) by (apply IH; exists p; auto). destruct (arp_pending_match l i ip now) as [r b]. cbn [snd] in IT. subst b.
    destruct (p_ip q =? 0); [reflexivity|]. destruct ((p_ts q <=? now) && (5000 <? now - p_ts q)); [reflexivity|]. destruct ((p_ip q =? ip) && (p_if q =? u8 i)); reflexivity.
Qed.
Lemma arp_recv_len ifs st i f dad : length (a_nbs (fst (arp_recv ifs st i f dad))) = length (a_nbs st).
Proof.
  unfold arp_recv. destruct (zlen f <? 42); [reflexivity|]. destruct (nth_error ifs (Z.to_nat i)) as [x|]; [|reflexivity]. cbv zeta.
  repeat match goal with
  | |- context [if ?c then _ else _] => destruct c
  | |- context [let '(_, _) := ?c in _] => destruct c
  end; cbn [fst a_nbs]; try reflexivity; try (apply index_length); unfold arp_store_neighbor; apply set_nth_length.
Qed.
Lemma frun_nbs_len : forall os st st' es, frun st os = Some (st', es) -> length (a_nbs (f_arp st')) = length (a_nbs (f_arp st)).
Proof.
  assert (LK : forall a i ip, length (a_nbs (fst (arp_lookup a i ip))) = length (a_nbs a)).
  { intros a i ip. unfold arp_lookup. pose proof (index_length (a_nbs a) i ip (a_tick a)) as H. destruct (arp_neighbor_index (a_nbs a) i ip (a_tick a)). exact H. }
  assert (ST : forall st o st' e, fstep st o = Some (st', e) -> length (a_nbs (f_arp st')) = length (a_nbs (f_arp st))).
  { intros st o st' e. destruct o as [w i f|w i f dad|now|i]; cbn [fstep].
    - unfold ip_recv. destruct (ip_accept w i f) as [b|]; [|discriminate]. cbn [obind]. destruct (negb b); [intros H; injection H as <- _; reflexivity|]. cbv zeta.
      destruct (fwd_is_local w (rd32 f 30)). { destruct (ip_up f); [|discriminate]. cbn [obind]. intros H; injection H as <- _; reflexivity. }
      destruct (rpf_drop w i (rd32 f 26)); [intros H; injection H as <- _; reflexivity|].
      match goal with |- context [if ?c then _ else _] => destruct c end. { destruct (ip_up f); [|discriminate]. cbn [obind]. intros H; injection H as <- _; reflexivity. }
      destruct (fwd_route w i (rd32 f 30)) as [[out nh]|]. 2:{ destruct (ip_up f); [|discriminate]. cbn [obind]. intros H; injection H as <- _; reflexivity. }
      destruct (mread f 0 (14 + rd16 f 16)) as [g|]; [|discriminate]. cbn [obind]. destruct (zget f 22 <=? 1).
      + unfold send_ttl_exceeded. destruct (nth_error (w_ifs w) (Z.to_nat i)) as [x|]; [|intros H; injection H as <- _; reflexivity]. cbv zeta.
        match goal with |- context [obind (if ?c then ?a else ?b)] => destruct (if c then a else b) as [s|] end; [|discriminate]. cbn [obind].
        destruct s; [intros H; injection H as <- _; reflexivity|].
        match goal with |- context [obind ?c _] => destruct c end; [|discriminate]. cbn [obind].
        match goal with |- context [obind ?c _] => destruct c end; [|discriminate]. cbn [obind].
        match goal with |- context [obind ?c _] => destruct c end; [|discriminate]. cbn [obind].
        match goal with |- context [if w_fsend ?a ?b ?c then _ else _] => destruct (w_fsend a b c) end; [intros H; injection H as <- _; reflexivity|].
        match goal with |- context [if ?c then Some _ else _] => destruct c end; intros H; injection H as <- _; reflexivity.
      + assert (PL : length (a_nbs (f_arp (fst (fst (forward_prepare w st out nh))))) = length (a_nbs (f_arp st))).
        { unfold forward_prepare. destruct (is_noneth w out); [reflexivity|]. destruct (is_loopback_if (w_lb w) out); [reflexivity|]. destruct (ip_is_broadcast (w_confs w) nh); [reflexivity|].
          specialize (LK (f_arp st) out nh). destruct (arp_lookup (f_arp st) out nh) as [a [m|]]; cbn [fst f_arp] in *; [exact LK|].
          pose proof (request_nbs (w_ifs w) a out nh) as RN. destruct (arp_request (w_ifs w) a out nh) as [a2 r]. cbn [fst f_arp] in *. rewrite RN. exact LK. }
        destruct (forward_prepare w st out nh) as [[st1 mac] evs]. cbn [fst] in PL. destruct mac as [m|].
        * destruct (dec_ttl g); [|discriminate]. cbn [obind]. intros H; injection H as <- _. exact PL.
        * destruct (arp_queue_packet w (f_q st1) out nh g); [|discriminate]. cbn [obind]. intros H; injection H as <- _. exact PL.
    - unfold arp_recv_fwd. pose proof (arp_recv_len (w_ifs w) (f_arp st) i f dad) as AL. destruct (arp_recv (w_ifs w) (f_arp st) i f dad) as [a o]. cbn [fst] in AL.
      destruct (arp_stores (w_ifs w) (f_arp st) i f dad) as [ip|]; [|intros H; injection H as <- _; exact AL].
      unfold arp_flush_pending. cbn [f_arp f_q f_id]. specialize (LK a i ip). destruct (arp_lookup a i ip) as [a2 [m|]]; cbn [fst] in LK.
      + destruct (flush_loop w (f_q st) i ip m) as [[q e']|]; [|discriminate]. cbn [obind]. intros H; injection H as <- _. cbn [f_arp]. lia.
      + intros H; injection H as <- _. cbn [f_arp]. lia.
    - intros H; injection H as <- _. reflexivity.
    - intros H; injection H as <- _. cbn [f_arp arp_purge a_nbs]. apply map_length. }
  induction os as [|o os IH]; intros st st' es; cbn [frun]; [intros H; injection H as <- _; reflexivity|].
  destruct (fstep st o) as [[s1 e1]|] eqn:E1; [|discriminate]. cbn [obind]. destruct (frun s1 os) as [[s2 e2]|] eqn:E2; [|discriminate]. cbn [obind].
  intros H. injection H as <- _. rewrite (IH _ _ _ E2). eapply ST. exact E1.
Qed.

Lemma flush_release w i ip mac x f0 : world_ok w -> nth_error (w_ifs w) (Z.to_nat i) = Some x -> mac_ok mac -> i_noneth x = false ->
  Forall byte f0 -> wellformed f0 -> 2 <= ttl f0 -> (forall g, w_fsend w i g = false) -> 14 + total f0 <= w_mtu w i ->
  forall q q' evs, In (mkQ ip i (part f0 0 (14 + total f0))) q -> flush_loop w q i ip mac = Some (q', evs) ->
  exists g, In (EvForward i g) evs /\ relayed f0 g /\ part g 0 6 = mac.
Proof.
  intros WO NX MO NE HB HW HT NF HM. induction q as [|e q IH]; intros q' evs HI; [destruct HI|]. cbn [flush_loop].
  destruct (flush_loop w q i ip mac) as [[r es]|]; [|discriminate]. cbn [obind]. destruct HI as [-> |HI].
  - cbn [q_dest q_if q_frame]. rewrite !Z.eqb_refl. cbn [negb orb].
    assert (LP : zlen (part f0 0 (14 + total f0)) = 14 + total f0). { destruct HW as (L1 & V & I & T & _). apply zlen_part; lia. }
    rewrite LP. pose proof HW as (L1 & V & I & T & _). destruct (Z.eqb_spec (14 + total f0) 0); [lia|]. destruct (Z.ltb_spec (w_mtu w i) (14 + total f0)); [lia|].
    rewrite wf_part_ttl by assumption. cbn [obind]. destruct (Z.leb_spec (ttl f0) 1); [lia|].
    destruct (relay_spec w f0 i x mac WO HB HW HT MO NX) as (g1 & -> & R1 & R2). cbn [obind]. intros HZ. injection HZ as <- <-.
    destruct R1 as [R1|(g & R1 & R3 & R4)]; [destruct (R2 NF HM R1)|]. rewrite R1. exists g. split; [left; reflexivity|]. split; [exact R3|]. apply R4. exact NE.
  - assert (SAME : forall e' es', exists g, (In (EvForward i g) es -> In (EvForward i g) (es' ++ es)) /\ (e' = e' :> qent)) by (intros; exists []; split; [intros; apply in_or_app; auto|reflexivity]).
    destruct (IH _ _ HI eq_refl) as (g & G1 & G2 & G3).
    destruct (negb (q_dest e =? ip) || negb (q_if e =? i)); [intros H; injection H as <- <-; exists g; auto|].
    destruct (zlen (q_frame e) =? 0); [intros H; injection H as <- <-; exists g; auto|]. destruct (w_mtu w i <? zlen (q_frame e)); [intros H; injection H as <- <-; exists g; auto|].
    destruct (rd1 (q_frame e) 22) as [t|]; [|discriminate]. cbn [obind]. destruct (t <=? 1); [intros H; injection H as <- <-; exists g; auto|].
    destruct (dec_ttl (q_frame e)); [|discriminate]. cbn [obind]. intros H; injection H as <- <-. exists g. split; [apply in_or_app; right; exact G1|auto].
Qed.
Lemma flush_empties w i ip mac : ip <> 0 -> forall q q' evs, flush_loop w q i ip mac = Some (q', evs) -> forall e, In e q' -> ~ (q_dest e = ip /\ q_if e = i).
Proof.
  intros IP0. induction q as [|e q IH]; intros q' evs; cbn [flush_loop]; [intros H; injection H as <- _; intros e []|].
  destruct (flush_loop w q i ip mac) as [[r es]|]; [|discriminate]. cbn [obind]. specialize (IH _ _ eq_refl).
  assert (Z0 : forall fr e', In e' (mkQ 0 (q_if e) fr :: r) -> ~ (q_dest e' = ip /\ q_if e' = i)) by (intros fr e' [<- |HI]; [cbn; lia|apply IH; exact HI]).
  destruct (negb (q_dest e =? ip) || negb (q_if e =? i)) eqn:Q; [intros H; injection H as <- _; intros e' [<- |HI]; [lia|apply IH; exact HI]|].
  destruct (zlen (q_frame e) =? 0); [intros H; injection H as <- _; apply Z0|]. destruct (w_mtu w i <? zlen (q_frame e)); [intros H; injection H as <- _; apply Z0|].
  destruct (rd1 (q_frame e) 22) as [t|]; [|discriminate]. cbn [obind]. destruct (t <=? 1); [intros H; injection H as <- _; apply Z0|].
  destruct (dec_ttl (q_frame e)); [|discriminate]. cbn [obind]. intros H; injection H as <- _. apply Z0.
Qed.

(** When the answer to a request sent at most 5 s ago arrives, the packet that
    waits for it is relayed to the answering host, and its place becomes free. *)
Theorem ip_arp_reply_releases : forall os st w i fa x ip mac f0, reached os st -> fop_ok (FArp w i fa false) ->
  nth_error (w_ifs w) (Z.to_nat i) = Some x -> i_noneth x = false -> is_reply fa ip mac ->
  ip <> 0 -> c_ip (i_conf x) <> ip -> ~ broadcast w ip -> ~ multicast ip ->
  (exists p, In p (a_pds (f_arp st)) /\ p_ip p = ip /\ p_if p = i /\ a_tick (f_arp st) - 5000 <= p_ts p) ->
  waiting st i ip f0 -> (forall g, w_fsend w i g = false) -> 14 + total f0 <= w_mtu w i -> 
  Forall byte f0 -> wellformed f0 -> 2 <= ttl f0 ->
  exists st' evs g, fstep st (FArp w i fa false) = Some (st', evs) /\ In (EvForward i g) evs /\ relayed f0 g /\ part g 0 6 = mac /\
    (forall f, ~ waiting st' i ip f).
Proof.
  intros os st w i fa x ip mac f0 HR (WO & Hi & HB) NX NE (F1 & F2 & F3 & F4 & F5 & F6 & F7 & F8 & F9) IP0 IPO NB NM (p & P1 & P2 & P3 & P4) WT NF HM HB0 HW HT.
  destruct (reached_inv _ _ HR) as (Q1 & Q2 & Q3). assert (Hi2 : 0 <= i < 256) by (destruct WO as (_ & W2 & _); lia).
  assert (PM : snd (arp_pending_match (a_pds (f_arp st)) i ip (a_tick (f_arp st))) = true).
  { apply pending_match_fresh; [exact Hi2|]. exists p. split; [exact P1|]. split; [exact P2|]. split; [exact P3|]. split; [exact IP0|]. lia. }
  assert (B1 : ip_is_broadcast (w_confs w) ip = false) by (destruct (ip_is_broadcast (w_confs w) ip) eqn:Q; [apply broadcast_iff in Q; contradiction|reflexivity]).
  assert (M1 : ip_is_multicast ip = false).
  { destruct (ip_is_multicast ip) eqn:Q; [|reflexivity]. exfalso. apply NM. apply multicast_iff; [|exact Q]. rewrite <- F7, rd32_addr. apply addr_range. exact HB. }
  cbn [fstep]. unfold arp_recv_fwd, arp_recv, arp_stores. destruct (Z.ltb_spec (zlen fa) 42); [lia|]. rewrite NX, NE. cbv zeta.
  rewrite F2, F3, F4, F5, F6, F7, F8, F9. cbn [Z.eqb negb orb andb Pos.eqb].
  replace (ip =? 0) with false by lia. replace (ip =? c_ip (i_conf x)) with false by lia. fold (w_confs w). rewrite B1, M1. cbn [orb].
  destruct (arp_pending_match (a_pds (f_arp st)) i ip (a_tick (f_arp st))) as [pds b]. cbn [snd] in *. subst b.
  set (a := mkArp _ _ _ _). unfold arp_flush_pending, arp_lookup. cbn [f_arp f_q f_id].
  assert (NBN : a_nbs (f_arp st) <> []).
  { destruct HR as (_ & es & ER). apply frun_nbs_len in ER. intros HX. rewrite HX in ER. cbn in ER. discriminate. }
  pose proof (stored_found (a_nbs (f_arp st)) i ip mac (a_tick (f_arp st)) NBN Hi2) as SF. cbn [a a_nbs a_tick a_pds a_last].
  destruct (arp_neighbor_index (arp_store_neighbor (a_nbs (f_arp st)) i ip mac (a_tick (f_arp st))) i ip (a_tick (f_arp st))) as [l o]. cbn [snd] in SF. subst o.
  assert (MO : mac_ok mac). { rewrite <- F8. rewrite slice_part. split; [apply zlen_part; cbn; lia|apply part_bytes; exact HB]. }
  set (a2 := mkArp l pds (a_last (f_arp st)) (a_tick (f_arp st))).
  assert (FL : exists q' evs, flush_loop w (f_q st) i ip mac = Some (q', evs)).
  { destruct (flush_inv os w (mkArp (arp_store_neighbor (a_nbs (f_arp st)) i ip mac (a_tick (f_arp st))) [] (a_last (f_arp st)) 0) i ip mac x WO NX MO) with (q := f_q st) as (q' & evs & EF & _).
    - exists x. split; [exact NX|]. right. right. right. destruct (store_spec (a_nbs (f_arp st)) i ip mac (a_tick (f_arp st)) NBN) as (k & old & K1 & K2 & _).
      cbn [a_nbs]. rewrite K2. exists (mkNb ip (u8 i) mac (a_tick (f_arp st))). split.
      + apply nth_error_In with k. rewrite set_nth_nth_error, Nat.eqb_refl. assert (k < length (a_nbs (f_arp st)))%nat by (apply nth_error_Some; congruence).
        destruct (Nat.ltb_spec k (length (a_nbs (f_arp st)))); [reflexivity|lia].
      + cbn. split; [reflexivity|]. split; [unfold u8; apply Z.mod_small; lia|reflexivity].
    - exact IP0.
    - exact Q1.
    - exists q', evs. exact EF. }
  destruct FL as (q' & evs & EF). rewrite EF. cbn [obind].
  destruct (flush_release w i ip mac x f0 WO NX MO NE HB0 HW HT NF HM _ _ _ WT EF) as (g & G1 & G2 & G3).
  exists (mkF a2 q' (f_id st)), evs, g. split; [reflexivity|]. split; [exact G1|]. split; [exact G2|]. split; [exact G3|].
  intros f HX. unfold waiting in HX. cbn [f_q] in HX. apply (flush_empties _ _ _ _ IP0 _ _ _ EF) in HX. apply HX. cbn. auto.
Qed.
Print Assumptions ip_arp_reply_releases.

(** ** Concrete instances *)
Lemma forwardable_dec w i f out nh : world_ok w -> 0 <= i < zlen (w_ifs w) -> Forall byte f ->
  ip_accept w i f = Some true -> fwd_is_local w (rd32 f 30) = false -> rpf_drop w i (rd32 f 26) = false ->
  negb (is_noneth w i) && negb (Z.land (zget f 0) 1 =? 0) = false -> fwd_route w i (rd32 f 30) = Some (out, nh) -> forwardable w i f out nh.
Proof.
  intros WO Hi HB A L R G RT. destruct (accept_spec w i f HB) as (b & E & HA). assert (b = true) by congruence. subst b.
  assert (NL : ~ for_us w f) by (rewrite <- local_iff; congruence).
  split; [apply HA; reflexivity|]. split; [exact NL|]. split; [rewrite <- rpf_iff by exact HB; congruence|].
  split; [rewrite <- group_iff by exact HB; congruence|]. rewrite rd32_addr in RT. fold (dst f) in RT.
  pose proof (route_spec w i (dst f) WO Hi (addr_range f 30 HB) ltac:(intros HX; apply NL; right; right; exact HX)) as RS.
  rewrite RT in RS. exact (proj1 RS).
Qed.
(** Every byte of a literal list is a byte. *)
Definition allbytes (l : list Z) : bool := forallb (fun b => (0 <=? b) && (b <=? 255)) l.
Lemma allbytes_ok l : allbytes l = true -> Forall byte l.
Proof. intros H. apply Forall_forall. intros b HI. unfold allbytes in H. rewrite forallb_forall in H. specialize (H b HI). unfold byte. lia. Qed.

(** A router: 10.0.0.1/24 on interface 0, 192.168.1.1/24 on interface 1, [rs] static routes. *)
Definition exIf (n ip mask : Z) : iface := mkIf [2; 0; 0; 0; 0; n] false {| c_ip := ip; c_mask := mask; c_gw := 0 |}.
Definition exW (dhcp : bool) (ifs : list iface) (rs : list route) : world :=
  mkW false dhcp ifs (fun _ => 1514) rs (fun _ _ => false) (fun _ _ => false).
Definition exIfs : list iface := [exIf 1 167772161 4294967040; exIf 2 3232235777 4294967040].
(** A datagram from [s] to [d], sent to the MAC address of interface 0. *)
Definition exPkt (t s d : Z) (pl : list Z) : list Z :=
  match iphdr_set_checksum ([69; 0] ++ be16 (20 + zlen pl) ++ [0; 7; 64; 0; t; 17; 0; 0] ++ be32 s ++ be32 d) with
  | Some h => [2; 0; 0; 0; 0; 1; 2; 0; 0; 0; 0; 9; 8; 0] ++ h ++ pl
  | None => []
  end.
(** Host [ip] with MAC 2:0:0:0:0:[n] answers interface 1. *)
Definition exReply (ip n : Z) : list Z :=
  [2; 0; 0; 0; 0; 2; 2; 0; 0; 0; 0; n; 8; 6; 0; 1; 8; 0; 6; 4; 0; 2; 2; 0; 0; 0; 0; n] ++ be32 ip ++ [2; 0; 0; 0; 0; 2; 192; 168; 1; 1].

Ltac decide_world := split; [repeat constructor; cbn; unfold byte, addr32; lia|split; [vm_compute; congruence|split; [apply Forall_forall; cbn [w_routes exW In]; intros r HI _; intuition (subst; vm_compute; intuition congruence)|intros; cbn; lia]]].
Lemma exW_ok : forall b, world_ok (exW b exIfs []).
Proof. intros b. decide_world. Qed.

Definition exF : list Z := exPkt 64 167772165 3232235785 [1; 2; 3; 4; 5; 6; 7; 8].     (* 10.0.0.5 -> 192.168.1.9 *)
Definition exSt : fst_ := match frun fwd_init [FTick 1000; FIp (exW false exIfs []) 0 exF] with Some (st, _) => st | None => fwd_init end.
Example forward_nonvacuous : reached [FTick 1000; FIp (exW false exIfs []) 0 exF] exSt /\ forwardable (exW false exIfs []) 0 exF 1 3232235785 /\
  2 <= ttl exF /\ waiting exSt 1 3232235785 exF.
Proof.
  assert (WO : world_ok (exW false exIfs [])) by apply exW_ok. assert (HB : Forall byte exF) by (apply allbytes_ok; vm_compute; reflexivity).
  split; [|split; [|split]].
  - split; [constructor; [exact I|constructor; [split; [exact WO|split; [vm_compute; split; congruence|exact HB]]|constructor]]|]. eexists. vm_compute. reflexivity.
  - apply forwardable_dec; try exact WO; try exact HB; vm_compute; auto; split; congruence.
  - vm_compute. congruence.
  - unfold waiting. vm_compute. left. reflexivity.
Qed.
(** ... and the answer releases it: TTL 63, to the neighbour, checksum adjusted. *)
Example arp_reply_nonvacuous : is_reply (exReply 3232235785 7) 3232235785 [2; 0; 0; 0; 0; 7] /\
  (exists p, In p (a_pds (f_arp exSt)) /\ p_ip p = 3232235785 /\ p_if p = 1 /\ a_tick (f_arp exSt) - 5000 <= p_ts p) /\
  match fstep exSt (FArp (exW false exIfs []) 1 (exReply 3232235785 7) false) with
  | Some (st, [EvForward 1 g]) => firstn 14 g = [2; 0; 0; 0; 0; 7; 2; 0; 0; 0; 0; 2; 8; 0] /\ zget g 22 = 63 /\ skipn 34 g = [1; 2; 3; 4; 5; 6; 7; 8]
  | _ => False
  end.
Proof.
  split; [|split].
  - unfold is_reply. repeat (split; [vm_compute; congruence|]). vm_compute. reflexivity.
  - eexists. split; [vm_compute; left; reflexivity|]. vm_compute. split; [reflexivity|]. split; [reflexivity|congruence].
  - vm_compute. auto.
Qed.
(** An expired one is reported to its source, one for the router is delivered, and one
    that claims to come from the other subnet is ignored. *)
Example ttl_nonvacuous : let f := exPkt 1 167772165 3232235785 [1; 2; 3; 4; 5; 6; 7; 8] in
  forwardable (exW false exIfs []) 0 f 1 3232235785 /\ ttl f <= 1 /\
  match fstep exSt (FIp (exW false exIfs []) 0 f) with Some (_, [EvIcmp 0 g]) => zget g 34 = 11 /\ dst g = 167772165 | _ => False end.
Proof.
  cbv zeta. split; [|split].
  - apply forwardable_dec; try apply exW_ok; try (apply allbytes_ok); vm_compute; auto; split; congruence.
  - vm_compute. congruence.
  - vm_compute. auto.
Qed.
Example deliver_nonvacuous : let f := exPkt 64 167772165 167772161 [1; 2; 3; 4] in
  fstep exSt (FIp (exW false exIfs []) 0 f) = Some (exSt, [EvUp f]) /\
  fstep exSt (FIp (exW false exIfs []) 0 (exPkt 64 3232235780 3232235785 [1; 2; 3; 4])) = Some (exSt, []).
Proof. split; vm_compute; reflexivity. Qed.

(** ** What does not hold *)
(** The longest prefix does not always win when relaying: a connected /8 beats a
    static /24 through another interface (the stack's own packets take the /24). *)
Definition lpmIfs : list iface := [exIf 1 3232235777 4294967040; exIf 2 167772161 4278190080; exIf 3 3232236033 4294967040].
Definition lpmR : route := {| r_used := true; r_if := 2; r_len := 24; r_prefix := 167837952; r_gw := 3232236034; r_order := 1 |}.
Theorem forward_longest_prefix_refuted :
  let w := exW false lpmIfs [lpmR] in let f := exPkt 64 3232235780 167837953 [1; 2; 3; 4] in     (* 192.168.1.4 -> 10.1.1.1 *)
  world_ok w /\ forwardable w 0 f 1 167837953 /\ same_prefix 24 (dst f) (r_prefix lpmR) /\
  route_lookup false (w_confs w) (w_routes w) (dst f) = Some (2, 3232236034).
Proof.
  cbv zeta. assert (WO : world_ok (exW false lpmIfs [lpmR])) by decide_world. split; [exact WO|]. split; [|split].
  - apply forwardable_dec; try exact WO; try (apply allbytes_ok); vm_compute; auto; split; congruence.
  - vm_compute. reflexivity.
  - vm_compute. reflexivity.
Qed.
Print Assumptions forward_longest_prefix_refuted.

(** A multicast destination is relayed along a unicast route (RFC 1812 5.3.5: here
    224.0.0.251, link-local multicast, which must never leave its link). *)
Definition defR : route := {| r_used := true; r_if := 1; r_len := 0; r_prefix := 0; r_gw := 3232235785; r_order := 1 |}.
Theorem forward_unicast_only_refuted :
  let w := exW false exIfs [defR] in let f := exPkt 255 167772165 3758096635 [1; 2; 3; 4] in
  world_ok w /\ multicast (dst f) /\ forwardable w 0 f 1 3232235785 /\
  exists st es, frun fwd_init [FTick 1000; FIp w 0 f; FArp w 1 (exReply 3232235785 7) false] = Some (st, es) /\
    exists g, last es [] = [EvForward 1 g] /\ dst g = 3758096635.
Proof.
  cbv zeta. assert (WO : world_ok (exW false exIfs [defR])) by decide_world. split; [exact WO|]. split; [|split].
  - vm_compute. split; congruence.
  - apply forwardable_dec; try exact WO; try (apply allbytes_ok); vm_compute; auto; split; congruence.
  - destruct (frun fwd_init _) as [[st es]|] eqn:E; [|exfalso; vm_compute in E; discriminate]. exists st, es. split; [reflexivity|].
    vm_compute in E. injection E as _ <-. eexists. split; [reflexivity|]. vm_compute. reflexivity.
Qed.
Print Assumptions forward_unicast_only_refuted.

(** While the DHCP client runs, packets whose source is 0.0.0.0 are relayed. *)
Theorem forward_source_zero_refuted :
  let w := exW true exIfs [] in let f := exPkt 64 0 3232235785 [1; 2; 3; 4] in
  world_ok w /\ src f = 0 /\ forwardable w 0 f 1 3232235785.
Proof.
  cbv zeta. assert (WO : world_ok (exW true exIfs [])) by decide_world. split; [exact WO|]. split; [vm_compute; reflexivity|].
  apply forwardable_dec; try exact WO; try (apply allbytes_ok); vm_compute; auto; split; congruence.
Qed.
Print Assumptions forward_source_zero_refuted.

(** Packets waiting for ARP never expire: four next hops that do not answer occupy
    the queue for good, whatever time passes, and a packet for a fifth is dropped
    although its next hop is alive. *)
Definition exDead : list fop := FTick 1000 :: map (fun k => FIp (exW false exIfs []) 0 (exPkt 64 167772165 (3232235785 + k) [1; 2; 3; 4])) [0; 1; 2; 3].
Definition exDeadSt : fst_ := match frun fwd_init exDead with Some (st, _) => st | None => fwd_init end.
Lemma ticks_keep_queue : forall ts st st' es, frun st (map FTick ts) = Some (st', es) -> f_q st' = f_q st.
Proof.
  induction ts as [|t ts IH]; intros st st' es; cbn [map frun fstep obind]; [intros H; injection H as <- _; reflexivity|].
  destruct (frun _ (map FTick ts)) as [[s2 e2]|] eqn:E; [|discriminate]. cbn [obind]. intros H. injection H as <- _. apply IH in E. exact E.
Qed.
Theorem forward_queue_recovers_refuted : forall ts st es, frun exDeadSt (map FTick ts) = Some (st, es) ->
  reached exDead exDeadSt /\ forall k, 4 <= k < 200 ->
  forall w nh f, nh = 3232235785 + k -> forall q', arp_queue_packet w (f_q st) 1 nh f = Some q' -> q' = f_q st.
Proof.
  intros ts st es E. split.
  - split; [|eexists; vm_compute; reflexivity]. constructor; [exact I|]. apply Forall_forall. intros o HI. apply in_map_iff in HI. destruct HI as (k & <- & HI).
    split; [apply exW_ok|]. split; [vm_compute; split; congruence|]. apply allbytes_ok. cbn [In] in HI. destruct HI as [<- |[<- |[<- |[<- |[]]]]]; vm_compute; reflexivity.
  - intros k K w nh f -> q'. rewrite (ticks_keep_queue _ _ _ _ E).
    assert (QS : queue_slot (f_q exDeadSt) 1 (3232235785 + k) 0 None = None).
    { replace (f_q exDeadSt) with (map (fun k => mkQ (3232235785 + k) 1 (exPkt 64 167772165 (3232235785 + k) [1; 2; 3; 4])) [0; 1; 2; 3]) by (vm_compute; reflexivity).
      cbn [map queue_slot q_dest q_if]. repeat match goal with |- context [(?a =? 3232235785 + k) && ?b] => replace (a =? 3232235785 + k) with false by lia end. reflexivity. }
    unfold arp_queue_packet. rewrite QS. destruct (zlen f =? 0); [congruence|]. destruct (w_mtu w 1 <? zlen f); congruence.
Qed.
Print Assumptions forward_queue_recovers_refuted.

(** Only the last packet for an unresolved next hop survives. *)
Theorem forward_all_waiting_refuted :
  let w := exW false exIfs [] in let f1 := exPkt 64 167772165 3232235785 [1; 1; 1; 1] in let f2 := exPkt 64 167772165 3232235785 [2; 2; 2; 2] in
  exists st es, frun fwd_init [FTick 1000; FIp w 0 f1; FIp w 0 f2] = Some (st, es) /\ waiting st 1 3232235785 f2 /\ ~ waiting st 1 3232235785 f1.
Proof.
  cbv zeta. destruct (frun fwd_init _) as [[st es]|] eqn:E; [|exfalso; vm_compute in E; discriminate]. exists st, es. split; [reflexivity|].
  assert (Q : f_q st = [mkQ 3232235785 1 (exPkt 64 167772165 3232235785 [2; 2; 2; 2]); qent0; qent0; qent0]) by (vm_compute in E; injection E as <- _; vm_compute; reflexivity).
  unfold waiting. rewrite Q. split; [left; vm_compute; reflexivity|]. vm_compute. intuition discriminate.
Qed.
Print Assumptions forward_all_waiting_refuted.

(** A packet larger than the outgoing MTU with "do not fragment" set disappears
    without the ICMP message path MTU discovery needs. *)
Theorem forward_too_big_reported_refuted :
  let f := exPkt 64 167772165 3232235785 (repeat 0 80) in
  let w := mkW false false exIfs (fun i => if i =? 1 then 68 else 1514) [] (fun _ _ => false) (fun _ _ => false) in
  world_ok w /\ forwardable w 0 f 1 3232235785 /\ word f 20 = 16384 /\
  exists st es, frun fwd_init [FTick 1000; FIp w 0 (exPkt 64 167772165 3232235785 [1; 2; 3; 4]); FArp w 1 (exReply 3232235785 7) false; FIp w 0 f] = Some (st, es) /\ last es [] = [].
Proof.
  cbv zeta. assert (WO : world_ok (mkW false false exIfs (fun i => if i =? 1 then 68 else 1514) [] (fun _ _ => false) (fun _ _ => false))).
  { split; [repeat constructor; cbn; unfold byte, addr32; lia|]. split; [vm_compute; congruence|]. split; [constructor|]. intros i. cbn. destruct (i =? 1); lia. }
  split; [exact WO|]. split; [|split].
  - apply forwardable_dec; try exact WO; try (apply allbytes_ok); vm_compute; auto; split; congruence.
  - vm_compute. reflexivity.
  - destruct (frun fwd_init _) as [[st es]|] eqn:E; [|exfalso; vm_compute in E; discriminate]. exists st, es. split; [reflexivity|].
    vm_compute in E. injection E as _ <-. reflexivity.
Qed.
Print Assumptions forward_too_big_reported_refuted.
