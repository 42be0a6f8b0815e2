(** C40: interface MTU and segment size bounds. *)
From Verif Require Import Base Fifo FifoSpec FifoHist FifoProps Mtu.
Local Ltac Zify.zify_post_hook ::= idtac.

Ltac brk := repeat match goal with
  | |- context [Z.ltb ?a ?b] => destruct (Z.ltb_spec a b)
  | |- context [Z.leb ?a ?b] => destruct (Z.leb_spec a b)
  | |- context [Z.eqb ?a ?b] => destruct (Z.eqb_spec a b)
  end.

(** A device stack: a physical interface with at most one VLAN on top, which is
    all wolfIP_vlan_create allows (wolfip.c:9914-9917). *)
Definition dev_ok (d : lldev) : Prop :=
  match d with Phys m | VlanOn (Phys m) => 0 <= m < 4294967296 | _ => False end.

(** C40.  Whatever the driver or user put in the mtu field, the frame size is
    within the link limits (4 bytes less on a VLAN), and the IP MTU at most 1500
    and at most the frame size less the Ethernet header. *)
Theorem frame_mtu_in_range : forall m, 0 <= m < 4294967296 ->
  64 <= ll_frame_mtu (Phys m) <= 1536 /\
  ll_frame_mtu (VlanOn (Phys m)) = ll_frame_mtu (Phys m) - 4 /\
  forall d, d = Phys m \/ d = VlanOn (Phys m) ->
    46 <= ip_mtu d <= 1500 /\ ip_mtu d + 14 <= ll_frame_mtu d.
Proof.
  intros m H. assert (A : 64 <= ll_frame_mtu (Phys m) <= 1536) by (cbn [ll_frame_mtu]; cbv zeta; brk; lia).
  assert (B : ll_frame_mtu (VlanOn (Phys m)) = ll_frame_mtu (Phys m) - 4).
  { change (ll_frame_mtu (VlanOn (Phys m))) with (let pm := ll_frame_mtu (Phys m) in if 4 <? pm then pm - 4 else 0). cbv zeta. brk; lia. }
  split; [exact A|]. split; [exact B|]. intros d Hd. unfold ip_mtu. cbv zeta.
  assert (C : 60 <= ll_frame_mtu d) by (destruct Hd as [-> | ->]; lia). brk; lia.
Qed.

(** Setting then reading the MTU gives the value asked for, forced into the range
    (0 asks for the default 1536). *)
Theorem mtu_set_get : forall m, 0 <= m < 4294967296 ->
  ll_frame_mtu (Phys (mtu_set m)) = (if m =? 0 then 1536 else Z.max 64 (Z.min m 1536)).
Proof.
  assert (F : forall m, ll_frame_mtu (Phys m) = (if m =? 0 then 1536 else Z.max 64 (Z.min m 1536))).
  { intros m. cbn [ll_frame_mtu]. destruct (Z.eqb_spec m 0); [reflexivity|]. destruct (Z.ltb_spec 1536 m); cbv zeta; [cbn; lia|].
    destruct (Z.ltb_spec m 64); lia. }
  intros m H. rewrite F. unfold mtu_set. destruct (Z.eqb_spec m 0); [reflexivity|]. destruct (Z.ltb_spec m 64); [cbn; lia|].
  destruct (Z.ltb_spec 1536 m); [cbn; lia|]. destruct (Z.eqb_spec m 0); [lia|]. reflexivity.
Qed.

(** C40.  Every segment a TCP send produces fits the interface: its IP length
    never exceeds the IP MTU, its frame never exceeds the frame MTU, and its
    payload never exceeds the peer's MSS (if one is known). *)
Theorem tcp_segment_fits_interface : forall d peer_mss ts size data os f outs left,
  dev_ok d -> 0 <= peer_mss < 65536 -> 0 <= left < 2147483648 ->
  size_ok size -> zlen data = size -> Forall op_ok os -> impl_run (fifo_init data size) os = Some (f, outs) ->
  let p := tcp_next_payload d peer_mss ts f left in
  0 <= p <= left /\
  (p <> 0 -> tcp_ip_len ts p <= ip_mtu d /\ 14 + tcp_ip_len ts p <= ll_frame_mtu d /\
             (0 < peer_mss -> p <= peer_mss) /\
             fifo_can_push_len f (54 + (if ts then 12 else 0) + p) = true).
Proof.
  intros d peer_mss ts size data os f outs left HD HM HL Hs Hd HO HR p. unfold p, tcp_next_payload. cbv zeta.
  assert (IM : 46 <= ip_mtu d <= 1500 /\ ip_mtu d + 14 <= ll_frame_mtu d).
  { destruct d as [m|[m|]]; cbn in HD; [|  |contradiction]; destruct (frame_mtu_in_range m HD) as (_ & _ & H); apply H; auto. }
  set (cap := tcp_tx_payload_cap d peer_mss).
  assert (CB : 0 <= cap /\ (0 < cap -> 40 + 12 + cap <= ip_mtu d) /\ (0 < peer_mss -> cap <= peer_mss)).
  { unfold cap, tcp_tx_payload_cap, tcp_mss. cbv zeta. destruct (Z.leb_spec (ip_mtu d) 40).
    - cbn [Z.ltb Z.compare]. destruct (Z.ltb_spec 0 peer_mss); cbn [andb]; [destruct (Z.ltb_spec peer_mss 0)|]; lia.
    - destruct (Z.ltb_spec 12 (ip_mtu d - 40)); (destruct (Z.ltb_spec 0 peer_mss); cbn [andb]; [|lia]);
      match goal with |- context [peer_mss <? ?x] => destruct (Z.ltb_spec peer_mss x) end; lia. }
  clearbody cap. set (pc := if cap <? left then cap else left).
  assert (PC : 0 <= pc <= cap /\ pc <= left) by (unfold pc; brk; lia). clearbody pc.
  set (b := 54 + (if ts then 12 else 0)). assert (HB : 54 <= b <= 66) by (unfold b; destruct ts; lia).
  assert (DE : DESC + b + pc < 2 ^ 32). { change (2 ^ 32) with 4294967296. unfold DESC. lia. }
  destruct (fifo_max_payload_is_maximum size data os f outs b pc Hs Hd HO ltac:(lia) ltac:(lia) DE HR) as (R1 & R2 & _).
  set (r := fifo_max_push_payload f b pc) in *. clearbody r. 
  destruct (Z.eqb_spec r 0); [split; [lia|congruence]|]. destruct (Z.ltb_spec cap r); [lia|].
  split; [lia|]. intros _. specialize (R2 ltac:(assumption)). unfold tcp_ip_len. split; [destruct ts; lia|]. split; [destruct ts; lia|].
  split; [lia|]. exact R2.
Qed.

(** C40, full statement: "nor the peer's MSS" as RFC 9293 3.7.1 (MUST-16) means it,
    i.e. options + payload within the peer's MSS.  False: the timestamp option is
    not subtracted from the peer's MSS.  Witness: standard interface, peer MSS 1400. *)
Theorem tcp_segment_fits_peer_mss_refuted : exists f,
  (exists data os outs, zlen data = 32768 /\ Forall op_ok os /\ impl_run (fifo_init data 32768) os = Some (f, outs)) /\
  let p := tcp_next_payload (Phys 1536) 1400 true f 2000 in p = 1400 /\ ~ (12 + p <= 1400).
Proof.
  exists (fifo_init (repeat 0 (Z.to_nat 32768)) 32768). split.
  - exists (repeat 0 (Z.to_nat 32768)), [], []. split; [unfold zlen; rewrite repeat_length; reflexivity|]. split; [constructor|reflexivity].
  - assert (E : tcp_next_payload (Phys 1536) 1400 true (fifo_init (repeat 0 (Z.to_nat 32768)) 32768) 2000 = 1400) by (vm_compute; reflexivity).
    cbv zeta. rewrite E. split; [reflexivity|lia].
Qed.
(** What does hold: exceeding by at most the 12 option bytes, and not at all without timestamps. *)
Theorem tcp_segment_fits_peer_mss_partial : forall d peer_mss ts size data os f outs left,
  dev_ok d -> 0 < peer_mss < 65536 -> 0 <= left < 2147483648 ->
  size_ok size -> zlen data = size -> Forall op_ok os -> impl_run (fifo_init data size) os = Some (f, outs) ->
  let p := tcp_next_payload d peer_mss ts f left in
  p <> 0 -> tcp_ip_len ts p - 40 <= peer_mss + (if ts then 12 else 0).
Proof.
  intros d peer_mss ts size data os f outs left HD HM HL Hs Hd HO HR p NP.
  destruct (tcp_segment_fits_interface d peer_mss ts size data os f outs left HD ltac:(lia) HL Hs Hd HO HR) as (_ & H).
  destruct (H NP) as (_ & _ & H3 & _). fold p in H3. specialize (H3 ltac:(lia)). unfold tcp_ip_len. destruct ts; lia.
Qed.

(** Path MTU discovery: after an ICMP "fragmentation needed" with next-hop MTU M
    segments should fit M.  With timestamps they do not (12 bytes too long), so
    the path stays blocked; without timestamps they do. *)
Theorem pmtu_respected_refuted : exists f,
  (exists data os outs, zlen data = 32768 /\ Forall op_ok os /\ impl_run (fifo_init data 32768) os = Some (f, outs)) /\
  let p := tcp_next_payload (Phys 1536) (ptb_update 1460 1400) true f 2000 in p <> 0 /\ ~ (tcp_ip_len true p <= 1400).
Proof.
  exists (fifo_init (repeat 0 (Z.to_nat 32768)) 32768). split.
  - exists (repeat 0 (Z.to_nat 32768)), [], []. split; [unfold zlen; rewrite repeat_length; reflexivity|]. split; [constructor|reflexivity].
  - assert (E : tcp_next_payload (Phys 1536) (ptb_update 1460 1400) true (fifo_init (repeat 0 (Z.to_nat 32768)) 32768) 2000 = 1360) by (vm_compute; reflexivity).
    cbv zeta. rewrite E. split; [lia|]. unfold tcp_ip_len. lia.
Qed.
Theorem pmtu_respected_partial : forall d peer_mss mtu size data os f outs left,
  dev_ok d -> 0 <= peer_mss < 65536 -> 576 <= mtu < 65536 -> 0 <= left < 2147483648 ->
  size_ok size -> zlen data = size -> Forall op_ok os -> impl_run (fifo_init data size) os = Some (f, outs) ->
  let p := tcp_next_payload d (ptb_update peer_mss mtu) false f left in
  p <> 0 -> tcp_ip_len false p <= mtu.
Proof.
  intros d peer_mss mtu size data os f outs left HD HM HU HL Hs Hd HO HR p NP.
  assert (PU : 0 < ptb_update peer_mss mtu <= mtu - 40 /\ ptb_update peer_mss mtu < 65536).
  { unfold ptb_update. cbv zeta. destruct (Z.leb_spec 576 mtu); [|lia]. assert (U : u16 (mtu - 40) = mtu - 40) by (unfold u16; apply Z.mod_small; lia).
    rewrite U. destruct (Z.eqb_spec peer_mss 0); cbn [orb]; [lia|]. destruct (Z.ltb_spec (mtu - 40) peer_mss); lia. }
  destruct (tcp_segment_fits_interface d (ptb_update peer_mss mtu) false size data os f outs left HD ltac:(lia) HL Hs Hd HO HR) as (_ & H).
  destruct (H NP) as (_ & _ & H3 & _). fold p in H3. specialize (H3 ltac:(lia)). unfold tcp_ip_len. lia.
Qed.
(** A spoofed "fragmentation needed" can never push the segment size under 536 bytes. *)
Theorem ptb_floor : forall peer_mss mtu, 0 <= peer_mss < 65536 -> 0 <= mtu < 65536 ->
  (peer_mss = 0 \/ 536 <= peer_mss) -> ptb_update peer_mss mtu = 0 /\ peer_mss = 0 \/ 536 <= ptb_update peer_mss mtu.
Proof.
  intros peer_mss mtu HP HM H. unfold ptb_update. cbv zeta. destruct (Z.leb_spec 576 mtu).
  - assert (U : u16 (mtu - 40) = mtu - 40) by (unfold u16; apply Z.mod_small; lia). rewrite U. 
    destruct (Z.eqb_spec peer_mss 0); cbn [orb]; [lia|]. destruct (Z.ltb_spec (mtu - 40) peer_mss); lia.
  - lia.
Qed.

(** A datagram is accepted for sending iff it fits the IP MTU unfragmented. *)
Theorem datagram_limits_exact : forall d len, dev_ok d -> 0 <= len ->
  (udp_len_ok d len = true <-> 20 + 8 + len <= ip_mtu d) /\
  (icmp_len_ok d len = true <-> 8 <= len /\ 20 + len <= ip_mtu d).
Proof.
  intros d len HD HL.
  assert (IM : 46 <= ip_mtu d <= 1500 /\ ip_mtu d + 14 <= ll_frame_mtu d).
  { destruct d as [m|[m|]]; cbn in HD; [|  |contradiction]; destruct (frame_mtu_in_range m HD) as (_ & _ & H); apply H; auto. }
  unfold udp_len_ok, icmp_len_ok. rewrite !negb_true_iff, !orb_false_iff. lia.
Qed.

Print Assumptions frame_mtu_in_range.
Print Assumptions mtu_set_get.
Print Assumptions tcp_segment_fits_interface.
Print Assumptions tcp_segment_fits_peer_mss_refuted.
Print Assumptions tcp_segment_fits_peer_mss_partial.
Print Assumptions pmtu_respected_refuted.
Print Assumptions pmtu_respected_partial.
Print Assumptions ptb_floor.
Print Assumptions datagram_limits_exact.

Example ex_mtu : map (fun m => ip_mtu (Phys (mtu_set m))) [0; 1; 64; 600; 1514; 9000] = [1500; 50; 50; 586; 1500; 1500] /\
  tcp_next_payload (VlanOn (Phys 600)) 0 true (fifo_init (repeat 0 (Z.to_nat 4096)) 4096) 10000 = 530.
Proof. split; vm_compute; reflexivity. Qed.
