(** C75: a wolfGuard device sends only sealed packets and handshake messages, each
    peer's only to where that peer was last authentically heard from; a datagram it
    cannot authenticate makes it send at most one smaller one, back to the sender. *)
From Verif Require Import Base ByteOrder Arp WgAllowedIps WgCounter WgDevice WgDeviceInv WgDeviceRun WgDeviceProps WgToy WgConf WgHandshake WgHello WgLoad.

(** ** Specification *)

(** The device has authenticated something as coming from peer [i]: a data packet,
    an initiation, or the response that completed a session. *)
Definition heard (i : Z) (e : ev) : bool :=
  match e with EAcc j _ _ _ _ | EHello j _ _ | ENew j _ _ _ => j =? i | _ => false end.
(** Where the peers are: where they were configured to be, until a datagram is
    authenticated as theirs; then where that one came from. *)
Fixpoint move (ip port : Z) (e : list ev) (i : Z) (l : list (Z * Z)) : list (Z * Z) :=
  match l with
  | [] => []
  | h :: l' => (if existsb (heard i) e then (ip, port) else h) :: move ip port e (i + 1) l'
  end.
Definition homes_step (l : list (Z * Z)) (o : op) (e : list ev) : list (Z * Z) :=
  match o with
  | OPeer _ _ ip port _ => if zlen l <? 8 then l ++ [(ip, port)] else l
  | ORecv _ ip port => move ip port e 0 l
  | _ => l
  end.
Fixpoint homes (C : crypto) (d : dev) (l : list (Z * Z)) (ops : list (op * list (list Z))) : list (Z * Z) :=
  match ops with
  | [] => l
  | (o, r) :: ops' => homes C (fst (step C d o r)) (homes_step l o (snd (step C d o r))) ops'
  end.

(** What may happen during a call, with the peers at [l]: every datagram is a sealed
    packet for a peer, at its place; or an initiation for a peer, at its place; or a
    response (type 2) or cookie reply (type 3) to the sender of the datagram being
    received. *)
Inductive sends (C : crypto) (l : list (Z * Z)) (o : op) : list ev -> Prop :=
| sends_nil : sends C l o []
| sends_data i sk c pt t ip port ridx ct e :
    nth_error l i = Some (ip, port) -> c_enc C sk c pt [] = Some ct -> sends C l o e ->
    sends C l o (EEnc (Z.of_nat i) sk c pt t :: EUdp ip port (le32 4 ++ le32 ridx ++ le64 c ++ ct) :: e)
| sends_init i t b ip port e :
    nth_error l i = Some (ip, port) -> (exists b', b = le32 1 ++ b') -> sends C l o e ->
    sends C l o (EInit (Z.of_nat i) t b :: EUdp ip port b :: e)
| sends_reply x ip port b e :
    o = ORecv x ip port -> (exists b', b = le32 2 ++ b' \/ b = le32 3 ++ b') -> sends C l o e ->
    sends C l o (EUdp ip port b :: e)
| sends_none x e :
    match x with EEnc _ _ _ _ _ | EUdp _ _ _ | EInit _ _ _ => False | _ => True end -> sends C l o e -> sends C l o (x :: e).

(** ** Proofs *)
Section Home.
Context (C : crypto).

Lemma sends_app l o x y : sends C l o x -> sends C l o y -> sends C l o (x ++ y).
Proof. intros H Y. induction H; cbn [app]; [exact Y|..]; econstructor; eassumption. Qed.

(** Functions on one peer. *)
Definition own (i : Z) (e : list ev) : Prop := forall j, j <> i -> existsb (heard j) e = false.
Lemma own_nil i : own i []. Proof. intros j _. reflexivity. Qed.
Lemma own_app i x y : own i x -> own i y -> own i (x ++ y).
Proof. intros X Y j N. rewrite existsb_app, (X j N), (Y j N). reflexivity. Qed.
Definition hact (i : nat) (f : act) : Prop := forall g p, let '(_, p', e) := f g p in
  p_active p' = p_active p /\ p_ip p' = p_ip p /\ p_port p' = p_port p /\ own (Z.of_nat i) e /\
  forall l o, nth_error l i = Some (p_ip p, p_port p) -> sends C l o e.
(** The same, starting from another view of the peer. *)
Definition same (p p' : peer) : Prop := p_active p' = p_active p /\ p_ip p' = p_ip p /\ p_port p' = p_port p.
Lemma h_from i f g p p0 : hact i f -> same p p0 -> let '(_, p', e) := f g p0 in
  p_active p' = p_active p /\ p_ip p' = p_ip p /\ p_port p' = p_port p /\ own (Z.of_nat i) e /\ forall l o, nth_error l i = Some (p_ip p, p_port p) -> sends C l o e.
Proof. intros F (E1 & E2 & E3). specialize (F g p0). destruct (f g p0) as [[g1 p1] e]. rewrite E1, E2, E3 in F. exact F. Qed.
Lemma h_quiet i p p' : same p p' -> p_active p' = p_active p /\ p_ip p' = p_ip p /\ p_port p' = p_port p /\ own (Z.of_nat i) [] /\ forall l o, nth_error l i = Some (p_ip p, p_port p) -> sends C l o [].
Proof. intros (E1 & E2 & E3). split; [exact E1|]. split; [exact E2|]. split; [exact E3|]. split; [apply own_nil|]. intros. constructor. Qed.
Lemma h_seq i f h : hact i f -> hact i h -> hact i (seq f h).
Proof.
  intros F H g p. unfold seq. specialize (F g p). destruct (f g p) as [[g1 p1] e1]. destruct F as (F1 & F2 & F3 & F4 & F5).
  pose proof (h_from i h g1 p p1 H (conj F1 (conj F2 F3))) as X. destruct (h g1 p1) as [[g2 p2] e2]. destruct X as (X1 & X2 & X3 & X4 & X5).
  split; [exact X1|]. split; [exact X2|]. split; [exact X3|]. split; [apply own_app; assumption|]. intros l o HL. apply sends_app; [apply F5, HL|apply X5, HL].
Qed.
Lemma create_initiation_type g h g1 h1 m : create_initiation C g h = (g1, h1, Some m) -> exists m', m = le32 1 ++ m'.
Proof.
  unfold create_initiation. destruct (dh_generate C g) as [g0 [[ep eb]|]]; [|discriminate]. cbn zeta. destruct (c_dh C ep _); [|discriminate]. destruct (kdf2 C _ _) as [k2 ky].
  destruct (c_enc C _ _ _ _); [|discriminate]. destruct (kdf2 C k2 _) as [k3 ky2]. destruct (c_enc C _ _ (timestamp _) _); [|discriminate]. destruct (new_index g0) as [g2 ix].
  destruct (ix =? 0); [discriminate|]. intros [= _ _ <-]. eexists. reflexivity.
Qed.
Lemma h_initiate i : hact i (initiate C (Z.of_nat i)).
Proof.
  intros g p. unfold initiate. destruct (create_initiation C g (p_hs p)) as [[g1 h1] [m|]] eqn:E.
  - unfold add_macs. cbn zeta. split; [reflexivity|]. split; [reflexivity|]. split; [reflexivity|]. split; [intros j _; reflexivity|]. intros l o HL.
    apply create_initiation_type in E. destruct E as (m' & ->). apply sends_init; [exact HL|eexists; rewrite <- app_assoc; reflexivity|constructor].
  - split; [reflexivity|]. split; [reflexivity|]. split; [reflexivity|]. split; [intros j _; reflexivity|]. intros l o HL. apply sends_none; [exact I|constructor].
Qed.
Lemma h_reset i : hact i (reset_handshake C).
Proof. intros g p. apply (h_quiet i p). repeat split. Qed.
Lemma h_send_init i : hact i (send_initiation C (Z.of_nat i)). Proof. apply h_seq; [apply h_reset|apply h_initiate]. Qed.
Lemma same_stage p pkt : same p (stage p pkt).
Proof. unfold stage. destruct (_ <=? _); repeat split. Qed.
Lemma h_packet i pkt : hact i (packet_send C (Z.of_nat i) pkt).
Proof.
  intros g p. unfold packet_send.
  assert (NS : let '(_, p', e) := (let p1 := stage p pkt in if hs_eqb (h_state (p_hs p1)) Zeroed then initiate C (Z.of_nat i) g p1 else (g, p1, [])) in
    p_active p' = p_active p /\ p_ip p' = p_ip p /\ p_port p' = p_port p /\ own (Z.of_nat i) e /\ forall l o, nth_error l i = Some (p_ip p, p_port p) -> sends C l o e).
  { cbn zeta. destruct (hs_eqb _ _); [apply (h_from i _ g p _ (h_initiate i) (same_stage p pkt))|apply h_quiet, same_stage]. }
  destruct (s_cur (p_kps p)) as [s|]; [|exact NS]. destruct (negb _); [exact NS|]. cbn zeta. clear NS.
  destruct (_ || _).
  { apply h_quiet. exact (same_stage (up_kps p (up_slot (p_kps p) s (kp_inv (slot (p_kps p) s)))) pkt). }
  destruct (_ <? _); [apply h_quiet; repeat split|]. destruct (c_enc C _ _ _ _) as [ct|] eqn:EC; [|apply h_quiet; repeat split].
  set (p2 := up_tsent _ _ _). assert (P2 : same p p2) by (repeat split). clearbody p2. unfold data_header.
  assert (HS : forall l o, nth_error l i = Some (p_ip p, p_port p) -> sends C l o
    [EEnc (Z.of_nat i) (k_skey (slot (p_kps p) s)) (k_sctr (slot (p_kps p) s)) (pad pkt) (g_now g);
     EUdp (p_ip p) (p_port p) ((le32 4 ++ le32 (k_ridx (slot (p_kps p) s)) ++ le64 (k_sctr (slot (p_kps p) s))) ++ ct)]).
  { intros l o HL. rewrite <- !app_assoc. apply sends_data; [exact HL|exact EC|constructor]. }
  destruct (_ && _).
  - pose proof (h_from i _ g p p2 (h_initiate i) P2) as X. destruct (initiate C (Z.of_nat i) g p2) as [[g3 p3] e3]. destruct X as (X1 & X2 & X3 & X4 & X5).
    split; [exact X1|]. split; [exact X2|]. split; [exact X3|]. split; [apply own_app; [intros j _; reflexivity|exact X4]|]. intros l o HL. apply sends_app; [apply HS, HL|apply X5, HL].
  - destruct P2 as (E1 & E2 & E3). split; [exact E1|]. split; [exact E2|]. split; [exact E3|]. split; [intros j _; reflexivity|exact HS].
Qed.
Lemma h_loop i n : forall j, hact i (staged_loop C (Z.of_nat i) n j).
Proof.
  induction n as [|n IH]; intros j g p; cbn [staged_loop]; [apply (h_quiet i p); repeat split|].
  apply (h_from i _ g p _ (h_seq i _ _ (h_packet i _) (IH (S j)))). repeat split.
Qed.
Lemma h_staged i : hact i (send_staged C (Z.of_nat i)).
Proof. intros g p. unfold send_staged. apply (h_from i _ g p _ (h_loop i _ 0)). repeat split. Qed.
Lemma h_keep i : hact i (keepalive C (Z.of_nat i)).
Proof.
  intros g p. unfold keepalive. assert (N := h_quiet i p p ltac:(repeat split)).
  destruct (s_cur (p_kps p)) as [s|]; [|exact N]. cbn zeta. destruct (negb _); [exact N|]. destruct (_ <=? _); [exact N|]. destruct (_ <=? _); [exact N|].
  destruct (c_enc C _ _ _ _) as [ct|] eqn:EC; [|exact N]. split; [reflexivity|]. split; [reflexivity|]. split; [reflexivity|]. split; [intros j _; reflexivity|]. intros l o HL.
  unfold data_header. rewrite <- !app_assoc. apply sends_data; [exact HL|exact EC|constructor].
Qed.
Lemma h_first i : hact i (first_keepalive C (Z.of_nat i)).
Proof.
  intros g p. unfold first_keepalive. assert (N := h_quiet i p p ltac:(repeat split)). destruct (s_cur (p_kps p)) as [s|]; [|exact N]. destruct (_ =? _); [apply (h_keep i g p)|exact N].
Qed.
Lemma h_none i : hact i skip.
Proof. intros g p. apply h_quiet. repeat split. Qed.
Lemma h_finish i x : hact i x -> hact i (finish C (Z.of_nat i) x).
Proof.
  intros X g p. unfold finish. destruct (begin_session C (Z.of_nat i) g p) as [[p1 e1]|] eqn:E; [|apply h_quiet; repeat split].
  unfold begin_session in E. destruct (_ && _); [discriminate|]. destruct (kdf2 C _ _) as [t1 t2]. injection E as <- <-. set (p2 := up_tdone _ _). assert (P2 : same p p2) by (repeat split). clearbody p2.
  pose proof (h_from i _ g p p2 (h_seq i _ _ (h_staged i) X) P2) as Q. destruct (seq (send_staged C (Z.of_nat i)) x g p2) as [[g2 p3] e2]. destruct Q as (Q1 & Q2 & Q3 & Q4 & Q5).
  split; [exact Q1|]. split; [exact Q2|]. split; [exact Q3|]. split; [|intros l o HL; apply sends_none; [exact I|apply Q5, HL]].
  intros j NJ. cbn [app existsb heard]. rewrite (Q4 j NJ). destruct (Z.eqb_spec (Z.of_nat i) j); [congruence|reflexivity].
Qed.
Lemma h_jitter i : hact i jitter.
Proof. intros g p. unfold jitter. destruct (g_rng g); apply (h_quiet i p); repeat split. Qed.
Lemma h_ka i : hact i (fun g p => let '(g1, p1, e) := keepalive C (Z.of_nat i) g p in (g1, up_tka p1 (g_now g), e)).
Proof. intros g p. pose proof (h_keep i g p) as Q. destruct (keepalive C (Z.of_nat i) g p) as [[g1 p1] e1]. exact Q. Qed.
Lemma h_js i : hact i (seq jitter (send_initiation C (Z.of_nat i))).
Proof. apply h_seq; [apply h_jitter|apply h_send_init]. Qed.
Lemma h_tick i : hact i (tick C (Z.of_nat i)).
Proof.
  assert (N : forall p, p_active p = p_active p /\ p_ip p = p_ip p /\ p_port p = p_port p /\ own (Z.of_nat i) [] /\ forall l o, nth_error l i = Some (p_ip p, p_port p) -> sends C l o []) by (intros p; apply h_quiet; repeat split).
  assert (T1 : hact i (tm_retransmit C (Z.of_nat i))).
  { intros g p. unfold tm_retransmit. destruct (_ || _); [apply N|]. destruct (_ <=? _); [apply (h_quiet i p); repeat split|]. destruct (_ <=? _); [apply h_send_init|apply N]. }
  assert (T2 : hact i (tm_passive C (Z.of_nat i))).
  { intros g p. unfold tm_passive. destruct (s_cur _); [|apply N]. destruct (negb _); [apply N|]. destruct (_ || _); [apply N|]. destruct (_ && _); [apply N|]. destruct (_ && _); [apply N|]. apply (h_ka i g p). }
  assert (T3 : hact i (tm_rekey C (Z.of_nat i))).
  { intros g p. unfold tm_rekey. destruct (s_cur _); [|apply N]. cbn zeta. destruct (_ || _); [apply N|]. destruct (_ <? _); [apply N|]. apply (h_js i g p). }
  assert (T4 : hact i (tm_stale C (Z.of_nat i))).
  { intros g p. unfold tm_stale. destruct (s_cur _); [|apply N]. destruct (_ || _); [apply N|]. destruct (_ && _); [apply N|]. destruct (_ && _); [apply N|]. apply (h_js i g p). }
  assert (T5 : hact i (tm_zero C)).
  { intros g p. unfold tm_zero. destruct (s_cur _); [|apply N]. destruct (_ <? _); [apply N|]. apply (h_from i _ g p (up_kps p kps_zero) (h_reset i)). repeat split. }
  assert (T6 : hact i (tm_persistent C (Z.of_nat i))).
  { intros g p. unfold tm_persistent. destruct (_ =? _); [apply N|]. destruct (s_cur _); [|apply N]. destruct (negb _); [apply N|]. destruct (_ && _); [apply N|]. apply (h_ka i g p). }
  intros g p. unfold tick. destruct (negb _); [apply N|].
  apply (h_seq i _ _ T1 (h_seq i _ _ T2 (h_seq i _ _ T3 (h_seq i _ _ T4 (h_seq i _ _ T5 T6))))).
Qed.
Lemma create_response_type g h g1 h1 m : create_response C g h = (g1, h1, Some m) -> exists m', m = le32 2 ++ m'.
Proof.
  unfold create_response. destruct (negb _); [discriminate|]. destruct (dh_generate C g) as [g0 [[ep eb]|]]; [|discriminate]. cbn zeta. destruct (c_dh C ep (h_reph h)); [|discriminate].
  destruct (c_dh C ep _); [|discriminate]. destruct (kdf3 C _ _) as [[k4 tau] ky]. destruct (c_enc C _ _ _ _); [|discriminate]. destruct (new_index g0) as [g2 ix].
  destruct (ix =? 0); [discriminate|]. intros [= _ _ <-]. eexists. reflexivity.
Qed.
Lemma h_answer i ip port g p : let '(_, p', e) := answer C (Z.of_nat i) ip port g p in
  p_active p' = p_active p /\ p_ip p' = ip /\ p_port p' = port /\ own (Z.of_nat i) e /\ forall l b, nth_error l i = Some (ip, port) -> sends C l (ORecv b ip port) e.
Proof.
  unfold answer. set (p0 := up_ep p ip port). destruct (create_response C g (p_hs p0)) as [[g1 h1] [m|]] eqn:E.
  - unfold add_macs. cbn zeta. set (p1 := up_cookie _ _). pose proof (h_from i _ g1 p0 p1 (h_finish i skip (h_none i)) ltac:(repeat split)) as Q. destruct (finish C (Z.of_nat i) skip g1 p1) as [[g2 p2] e2].
    destruct Q as (Q1 & Q2 & Q3 & Q4 & Q5). split; [exact Q1|]. split; [exact Q2|]. split; [exact Q3|]. split; [intros j NJ; cbn [existsb heard]; apply Q4, NJ|]. intros l b HL.
    apply create_response_type in E. destruct E as (m' & ->). eapply sends_reply; [reflexivity|eexists; left; rewrite <- app_assoc; reflexivity|]. apply Q5, HL.
  - split; [reflexivity|]. split; [reflexivity|]. split; [reflexivity|]. split; [apply own_nil|]. intros. constructor.
Qed.

(** *** The device *)
Definition HI (l : list (Z * Z)) (d : dev) : Prop :=
  length (snd d) = 8%nat /\ forall i, (i < 8)%nat ->
    match nth_error l i with
    | Some h => p_active (nth i (snd d) peer_zero) = true /\ (p_ip (nth i (snd d) peer_zero), p_port (nth i (snd d) peer_zero)) = h
    | None => p_active (nth i (snd d) peer_zero) = false
    end.
Definition same_h (p p' : peer) : Prop := same p p'.
Lemma HI_set l d i p g : (i < 8)%nat -> same (nth i (snd d) peer_zero) p -> HI l d -> HI l (g, lset (snd d) i p).
Proof.
  intros Hi (E1 & E2 & E3) (L & P). split; [cbn [snd]; rewrite lset_length; exact L|]. intros j Hj. cbn [snd]. destruct (Nat.eq_dec j i) as [->|NJ].
  - rewrite nth_lset_eq by lia. specialize (P i Hi). rewrite E1, E2, E3. exact P.
  - rewrite nth_lset_ne by exact NJ. apply P, Hj.
Qed.
Lemma HI_on_peer l d i f o : (i < 8)%nat -> p_active (nth i (snd d) peer_zero) = true -> hact i f -> HI l d ->
  HI l (fst (on_peer d i f)) /\ sends C l o (snd (on_peer d i f)) /\ own (Z.of_nat i) (snd (on_peer d i f)).
Proof.
  intros Hi HA F H. unfold on_peer. specialize (F (fst d) (nth i (snd d) peer_zero)). destruct (f _ _) as [[g1 p1] e]. destruct F as (F1 & F2 & F3 & F4 & F5). cbn [fst snd].
  split; [apply HI_set; [exact Hi|repeat split; assumption|exact H]|]. split; [|exact F4]. apply F5. destruct H as (_ & P). specialize (P i Hi).
  destruct (nth_error l i) as [h|]; [destruct P as (_ & <-); reflexivity|congruence].
Qed.
Lemma HI_tick_all l o n : forall d i, (i + n <= 8)%nat -> HI l d -> HI l (fst (tick_all C d n i)) /\ sends C l o (snd (tick_all C d n i)).
Proof.
  induction n as [|n IH]; intros d i Hi H; cbn [tick_all]; [split; [exact H|constructor]|].
  assert (H1 : HI l (fst (on_peer d i (tick C (Z.of_nat i)))) /\ sends C l o (snd (on_peer d i (tick C (Z.of_nat i))))).
  { destruct (p_active (nth i (snd d) peer_zero)) eqn:EA; [destruct (HI_on_peer l d i _ o ltac:(lia) EA (h_tick i) H) as (X1 & X2 & _); split; assumption|].
    unfold on_peer, tick. rewrite EA. cbn [negb fst snd]. split; [|constructor]. apply HI_set; [lia|repeat split|exact H]. }
  destruct (on_peer d i _) as [d1 e1]. cbn [fst snd] in *. destruct H1 as (H1 & S1). destruct (IH d1 (S i) ltac:(lia) H1) as (H2 & S2). destruct (tick_all C d1 n (S i)) as [d2 e2]. cbn [fst snd] in *.
  split; [exact H2|apply sends_app; assumption].
Qed.
Lemma HI_g l g g' ps : HI l (g, ps) -> HI l (g', ps). Proof. intros H. exact H. Qed.

Lemma move_nth ip port e l : forall k i, nth_error (move ip port e k l) i =
  match nth_error l i with Some h => Some (if existsb (heard (k + Z.of_nat i)) e then (ip, port) else h) | None => None end.
Proof.
  induction l as [|h l IH]; intros k i; cbn [move]; [destruct i; reflexivity|]. destruct i as [|i]; cbn [nth_error]; [rewrite Z.add_0_r; reflexivity|]. rewrite IH.
  replace (k + 1 + Z.of_nat i) with (k + Z.of_nat (S i)) by lia. reflexivity.
Qed.
Lemma move_quiet ip port e l : (forall j, existsb (heard j) e = false) -> forall k, move ip port e k l = l.
Proof. intros H. induction l as [|h l IH]; intros k; cbn [move]; [reflexivity|]. rewrite H, IH. reflexivity. Qed.
(** Peer [i] is heard, and is now where the datagram came from. *)
Lemma HI_move l d i p g e ip port : (i < 8)%nat -> p_active p = true -> p_ip p = ip -> p_port p = port -> p_active (nth i (snd d) peer_zero) = true ->
  own (Z.of_nat i) e -> existsb (heard (Z.of_nat i)) e = true -> HI l d ->
  HI (move ip port e 0 l) (g, lset (snd d) i p) /\ nth_error (move ip port e 0 l) i = Some (ip, port).
Proof.
  intros Hi EA EI EP EB HO HE (L & P). assert (X : nth_error (move ip port e 0 l) i = Some (ip, port)).
  { rewrite move_nth. specialize (P i Hi). destruct (nth_error l i); [|congruence]. cbn [Z.add]. rewrite HE. reflexivity. }
  split; [|exact X]. split; [cbn [snd]; rewrite lset_length; exact L|]. intros j Hj. cbn [snd]. destruct (Nat.eq_dec j i) as [->|NJ].
  - rewrite nth_lset_eq by lia. rewrite X. split; [exact EA|congruence].
  - rewrite nth_lset_ne by exact NJ. rewrite move_nth. specialize (P j Hj). destruct (nth_error l j) as [h|]; [|exact P]. cbn [Z.add]. rewrite HO by lia. exact P.
Qed.
Lemma send_reply_one d b off ip port : exists g, fst (send_reply C d b off ip port) = (g, snd d) /\
  (snd (send_reply C d b off ip port) = [] \/ exists nonce e, snd (send_reply C d b off ip port) = [EUdp ip port (le32 3 ++ slice b 4 4 ++ nonce ++ e)] /\ In nonce (g_rng (fst d)) /\
    exists k p a, c_xenc C k nonce p a = Some e /\ exists s m, p = c_hmac C s m).
Proof.
  unfold send_reply, create_reply.
  destruct (_ <? _).
  - destruct (g_rng (fst d)) as [|b0 r]; cbn [negb]; [eexists; split; [reflexivity|left; reflexivity]|]. cbn [up_chk g_rng up_rng x_enckey x_secret g_chk].
    destruct r as [|nc r]; [eexists; split; [reflexivity|left; reflexivity]|].
    destruct (c_xenc C _ _ _ _) as [x|] eqn:EX; [|eexists; split; [reflexivity|left; reflexivity]]. eexists; split; [reflexivity|right]. exists nc, x. split; [reflexivity|]. split; [right; left; reflexivity|].
    eexists _, _, _. split; [exact EX|]. eexists _, _. reflexivity.
  - cbn [negb]. destruct (g_rng (fst d)) as [|b0 r]; [eexists; split; [reflexivity|left; reflexivity]|].
    destruct (c_xenc C _ _ _ _) as [x|] eqn:EX; [|eexists; split; [reflexivity|left; reflexivity]]. eexists; split; [reflexivity|right]. exists b0, x. split; [reflexivity|]. split; [left; reflexivity|].
    eexists _, _, _. split; [exact EX|]. eexists _, _. reflexivity.
Qed.

(** A received datagram: nothing; a cookie reply; or something authenticated. *)
Definition recv_out (l : list (Z * Z)) (d : dev) (b : list Z) (ip port : Z) (res : dev * list ev) : Prop :=
  (snd res = [] /\ HI l (fst res)) \/
  (HI l (fst res) /\ 157 <= zlen b /\ exists nonce e, snd res = [EUdp ip port (le32 3 ++ slice b 4 4 ++ nonce ++ e)] /\ In nonce (g_rng (fst d)) /\
    exists k p a, c_xenc C k nonce p a = Some e /\ exists s m, p = c_hmac C s m) \/
  (exists i, existsb (heard i) (snd res) = true) /\ HI (move ip port (snd res) 0 l) (fst res) /\ sends C (move ip port (snd res) 0 l) (ORecv b ip port) (snd res).
Lemma recv_reply l d b off ip port : HI l d -> 157 <= zlen b -> recv_out l d b ip port (send_reply C d b off ip port).
Proof.
  intros H HB. destruct (send_reply_one d b off ip port) as (g & E1 & [E2|(nc & x & E2 & IN & R)]); [left|right; left].
  - split; [exact E2|]. rewrite E1. exact H.
  - split; [rewrite E1; exact H|]. split; [exact HB|]. exists nc, x. split; [exact E2|]. split; [exact IN|exact R].
Qed.
Lemma recv_step l d b ip port : HI l d -> recv_out l d b ip port (packet_receive C d b ip port).
Proof.
  intros H. unfold packet_receive. assert (HN : recv_out l d b ip port (d, [])) by (left; split; [reflexivity|exact H]). destruct (zlen b <? 4); [exact HN|]. cbn zeta. destruct d as [g ps].
  pose proof H as (L & P). cbn [snd] in L, P.
  assert (H1 : recv_out l (g, ps) b ip port ((up_hpc g (u16 (g_hpc g + 1)), ps), [])) by (left; split; [reflexivity|exact H]).
  destruct (_ =? 1); [|destruct (_ =? 2); [|destruct (_ =? 3); [|destruct (_ =? 4); [|exact HN]]]].
  - unfold handle_initiation. destruct (Z.ltb_spec (zlen b) INIT_LEN) as [|LB]; [exact HN|]. unfold INIT_LEN in LB.
    assert (QQ : forall st, recv_out l (g, ps) b ip port (if g_load g && negb (match st with MacCookie => true | _ => false end)
      then send_reply C (g, ps) b (Z.to_nat INIT_MAC) ip port else let g1 := up_hpc g (u16 (g_hpc g + 1)) in
      match consume_initiation C g1 ps b with None => ((g1, ps), []) | Some (i, p, ts) =>
        let (d', e) := on_peer (g1, lset ps i p) i (answer C (Z.of_nat i) ip port) in (d', EHello (Z.of_nat i) ts (g_now g) :: e) end)).
    { intros st. match goal with |- context [if ?x then send_reply _ _ _ _ _ _ else _] => destruct x end; [apply recv_reply; [exact H|lia]|]. cbn zeta.
      set (g1 := up_hpc _ _) in *. destruct (consume_initiation C g1 ps b) as [[[k p] ts]|] eqn:EC; [|exact H1].
      assert (X : (k < 8)%nat /\ p_active (nth k ps peer_zero) = true /\ p_active p = p_active (nth k ps peer_zero)).
      { revert EC. unfold consume_initiation. destruct (c_dh C _ _); [|discriminate]. destruct (kdf2 C _ _) as [ck2 key]. destruct (c_dec C _ _ _ _) as [sp|]; [|discriminate]. cbn zeta.
        destruct (find_pub ps sp 0) as [k'|] eqn:EP; [|discriminate]. apply find_pub_active in EP. rewrite Nat.sub_0_r in EP. destruct (_ && _); [discriminate|]. destruct (kdf2 C ck2 _) as [ck3 key2].
        destruct (c_dec C _ _ _ _) as [ts'|]; [|discriminate]. destruct (negb _); [discriminate|]. intros [= <- <- <-]. split; [lia|]. split; [apply EP|reflexivity]. }
      destruct X as (X1 & X2 & X3). rewrite X2 in X3. clear EC. right; right. unfold on_peer. cbn [fst snd]. rewrite nth_lset_eq by lia.
      pose proof (h_answer k ip port g1 p) as Q. destruct (answer C (Z.of_nat k) ip port g1 p) as [[g2 p2] e]. destruct Q as (Q1 & Q2 & Q3 & Q4 & Q5). cbn [fst snd].
      assert (HE : existsb (heard (Z.of_nat k)) (EHello (Z.of_nat k) ts (g_now g) :: e) = true) by (cbn [existsb heard]; rewrite Z.eqb_refl; reflexivity).
      assert (HO : own (Z.of_nat k) (EHello (Z.of_nat k) ts (g_now g) :: e)).
      { intros j NJ. cbn [existsb heard]. rewrite (Q4 j NJ). destruct (Z.eqb_spec (Z.of_nat k) j); [congruence|reflexivity]. }
      rewrite lset_lset.
      destruct (HI_move l (g, ps) k p2 g2 _ ip port X1 ltac:(congruence) Q2 Q3 X2 HO HE H) as (M1 & M2).
      split; [exists (Z.of_nat k); exact HE|]. split; [exact M1|]. apply sends_none; [exact I|]. apply Q5, M2. }
    destruct (cookie_validate C (g_chk g) b (Z.to_nat INIT_MAC) ip port (g_now g)); [exact HN|exact (QQ MacValid)|exact (QQ MacCookie)].
  - unfold handle_response. destruct (Z.ltb_spec (zlen b) RESP_LEN) as [|LB]; [exact HN|]. unfold RESP_LEN in LB.
    assert (QQ : forall st, recv_out l (g, ps) b ip port (if g_load g && negb (match st with MacCookie => true | _ => false end)
      then send_reply C (g, ps) b (Z.to_nat RESP_MAC) ip port else let g1 := up_hpc g (u16 (g_hpc g + 1)) in
      match find_wait ps (mr_receiver b) 0 with None => ((g1, ps), []) | Some i => let p := nth i ps peer_zero in
        match consume_response C g1 (p_hs p) b with None => ((g1, ps), []) | Some h1 =>
           on_peer (g1, lset ps i (up_ep (up_hs p h1) ip port)) i (finish C (Z.of_nat i) (first_keepalive C (Z.of_nat i))) end end)).
    { intros st. match goal with |- context [if ?x then send_reply _ _ _ _ _ _ else _] => destruct x end; [apply recv_reply; [exact H|lia]|]. cbn zeta.
      destruct (find_wait ps (mr_receiver b) 0) as [k|] eqn:EF; [|exact H1]. pose proof (find_wait_active _ _ _ _ EF) as (FA & _). apply find_wait_bound in EF. rewrite Nat.sub_0_r in FA.
      set (g1 := up_hpc _ _) in *. destruct (consume_response C g1 (p_hs (nth k ps peer_zero)) b) as [h1|] eqn:EC; [|exact H1].
      assert (X : h_state h1 = ConsumedResp).
      { revert EC. unfold consume_response. destruct (negb _); [discriminate|]. cbn zeta. destruct (c_dh _ _ _); [|discriminate]. destruct (c_dh _ _ _); [|discriminate].
        destruct (kdf3 C _ _) as [[? ?] ?]. destruct (c_dec _ _ _ _ _); [|discriminate]. intros EC. injection EC as <-. reflexivity. }
      clear EC. right; right. unfold on_peer. cbn [fst snd]. rewrite nth_lset_eq by lia. set (p1 := up_ep _ ip port).
      pose proof (h_finish k _ (h_first k) g1 p1) as Q.
      assert (HE : existsb (heard (Z.of_nat k)) (snd (finish C (Z.of_nat k) (first_keepalive C (Z.of_nat k)) g1 p1)) = true).
      { unfold finish, begin_session. assert (EX : h_state (p_hs p1) = ConsumedResp) by exact X. rewrite EX. cbn [hs_eqb negb andb]. destruct (kdf2 C _ _) as [t1 t2]. cbn zeta.
        destruct (seq _ _ _ _) as [[gg pp] ee]. cbn [snd app existsb heard]. rewrite Z.eqb_refl. reflexivity. }
      destruct (finish C (Z.of_nat k) (first_keepalive C (Z.of_nat k)) g1 p1) as [[g2 p2] e]. destruct Q as (Q1 & Q2 & Q3 & Q4 & Q5). cbn [fst snd] in *.
      rewrite lset_lset.
      destruct (HI_move l (g, ps) k p2 g2 e ip port ltac:(lia) ltac:(rewrite Q1; exact FA) Q2 Q3 FA Q4 HE H) as (M1 & M2).
      split; [exists (Z.of_nat k); exact HE|]. split; [exact M1|]. apply Q5, M2. }
    destruct (cookie_validate C (g_chk g) b (Z.to_nat RESP_MAC) ip port (g_now g)); [exact HN|exact (QQ MacValid)|exact (QQ MacCookie)].
  - unfold handle_cookie. destruct (zlen b <? 72); [exact HN|]. destruct (find_mac1 _ _ 0) as [k|] eqn:EF; [|exact HN]. apply find_mac1_bound in EF.
    left. split; [reflexivity|]. apply (HI_set l (g, ps)); [lia|repeat split|exact H].
  - unfold handle_data. destruct (zlen b <? 32); [exact HN|]. cbn zeta. destruct (find_idx ps _ 0) as [[k s]|] eqn:EF; [|exact HN].
    pose proof (find_idx_active _ _ _ _ _ EF) as FA. apply find_idx_spec in EF. rewrite Nat.sub_0_r in FA.
    destruct (negb _); [exact HN|]. destruct (_ <=? _); [exact HN|]. destruct (_ <? _); [exact HN|]. destruct (c_dec _ _ _ _ _) as [pt|]; [|exact HN].
    destruct (wg_counter_validate _ _) as [rx ok]. destruct ok; cbn [negb].
    + right; right. cbn [fst snd]. set (e := _ :: _). assert (HE : existsb (heard (Z.of_nat k)) e = true) by (cbn [e existsb heard]; rewrite Z.eqb_refl; reflexivity).
      assert (HO : own (Z.of_nat k) e). { intros j NJ. cbn [e existsb heard]. destruct (Z.eqb_spec (Z.of_nat k) j); [congruence|]. destruct (wg_inject _ _ _); reflexivity. }
      set (p4 := up_trecv _ _ _). assert (EA : p_active p4 = true) by exact FA.
      destruct (HI_move l (g, ps) k p4 g e ip port ltac:(lia) EA eq_refl eq_refl FA HO HE H) as (M1 & M2).
      split; [exists (Z.of_nat k); exact HE|]. split; [exact M1|]. unfold e. apply sends_none; [exact I|]. destruct (wg_inject _ _ _); repeat constructor.
    + left. split; [reflexivity|]. apply (HI_set l (g, ps)); [lia|repeat split|exact H].
Qed.

Lemma HI_step l d o r : HI l d -> HI (homes_step l o (snd (step C d o r))) (fst (step C d o r)) /\ sends C (homes_step l o (snd (step C d o r))) o (snd (step C d o r)).
Proof.
  intros H0. unfold step. set (d0 := (up_rng (fst d) r, snd d)). assert (H : HI l d0) by exact H0. clearbody d0. clear H0 d.
  destruct o as [priv|pub psk ip port ka|i ip cidr|pkt|now|b ip port]; cbn [homes_step].
  - split; [|constructor]. cbn [fst snd]. unfold set_private_key. destruct (c_pub C priv) as [pb|]; [|exact H]. destruct H as (L & P). split; [cbn [snd]; rewrite map_length; exact L|].
    intros i Hi. cbn [snd]. specialize (P i Hi). assert (E : nth i (map (rekey_peer C priv) (snd d0)) peer_zero = rekey_peer C priv (nth i (snd d0) peer_zero)).
    { rewrite <- (map_nth (rekey_peer C priv)). apply nth_indep. rewrite map_length. lia. }
    rewrite E. unfold rekey_peer. destruct (p_active (nth i (snd d0) peer_zero)) eqn:EA; cbn [negb]; [|rewrite EA; exact P]. destruct (nth_error l i); [|discriminate]. split; [exact EA|apply P].
  - split; [|constructor]. cbn [fst snd]. destruct H as (L & P). unfold add_peer.
    assert (LL : (length l <= 8)%nat -> forall k, nth_error l k <> None <-> (k < length l)%nat) by (intros _ k; apply nth_error_Some).
    destruct (find_free (snd d0) 0) as [j|] eqn:E.
    + apply find_free_spec in E. rewrite Nat.sub_0_r in E. destruct E as (E1 & E2 & E3).
      assert (EJ : j = length l).
      { destruct (Nat.lt_trichotomy j (length l)) as [X|[X|X]]; [|exact X|].
        - pose proof (P j ltac:(lia)) as Pj. destruct (nth_error l j) eqn:EN; [|apply nth_error_None in EN; lia]. destruct Pj. congruence.
        - specialize (E3 (length l) ltac:(lia)). pose proof (P (length l) ltac:(lia)) as Pj. assert (nth_error l (length l) = None) as EN by (apply nth_error_None; lia). rewrite EN in Pj. congruence. }
      assert (ZL : (zlen l <? 8) = true) by (unfold zlen; lia). rewrite ZL. split; [cbn [snd]; rewrite lset_length; exact L|]. intros i Hi. cbn [snd]. rewrite nth_error_snoc. pose proof (P i Hi) as Pi.
      destruct (Nat.ltb_spec i (length l)) as [LT|GE]; [rewrite nth_lset_ne by lia; exact Pi|]. destruct (Nat.eqb_spec i (length l)) as [EI|NE].
      * replace j with i by lia. rewrite nth_lset_eq by lia. split; reflexivity.
      * rewrite nth_lset_ne by lia. assert (EN : nth_error l i = None) by (apply nth_error_None; lia). rewrite EN in Pi. exact Pi.
    + assert (ZL : (zlen l <? 8) = false).
      { destruct (zlen l <? 8) eqn:ZZ; [|reflexivity]. assert (LT : (length l < 8)%nat) by (unfold zlen in ZZ; lia). pose proof (find_free_none _ _ E (length l) ltac:(lia)) as X.
        pose proof (P (length l) LT) as Pj. assert (nth_error l (length l) = None) as EN by (apply nth_error_None; lia). rewrite EN in Pj. congruence. }
      rewrite ZL. split; [exact L|exact P].
  - split; [|constructor]. cbn [fst snd]. unfold add_allowed. destruct (_ || _); [exact H|]. destruct (negb _); exact H.
  - unfold output. destruct (wolfguard_output _ _ pkt) as [i|] eqn:EO; [|split; [exact H|constructor]].
    unfold wolfguard_output in EO. destruct (zlen pkt <? 20); [discriminate|]. destruct (negb _); [discriminate|]. cbn zeta in EO.
    destruct ((aips_lookup (g_aips (fst d0)) (load_le32 (skipn 16 pkt)) <? 0) || (8 <=? aips_lookup (g_aips (fst d0)) (load_le32 (skipn 16 pkt)))) eqn:EB; [discriminate|].
    destruct (p_active (nth (Z.to_nat (aips_lookup (g_aips (fst d0)) (load_le32 (skipn 16 pkt)))) (snd d0) peer_zero)) eqn:EA; cbn [negb] in EO; [|discriminate].
    apply orb_false_iff in EB. destruct EB as (EB1 & EB2). assert (EI : aips_lookup (g_aips (fst d0)) (load_le32 (skipn 16 pkt)) = i) by congruence.
    rewrite EI in *. assert (HI8 : 0 <= i < 8) by lia. clear EO EB1 EB2 EI.
    destruct (HI_on_peer l d0 (Z.to_nat i) (packet_send C i pkt) (OOut pkt) ltac:(lia) EA) as (X1 & X2 & _); [|exact H|].
    { pose proof (h_packet (Z.to_nat i) pkt) as X. rewrite Z2Nat.id in X by lia. exact X. }
    destruct (on_peer _ _ _) as [d' e]. cbn [fst snd] in *. split; [exact X1|]. apply sends_none; [exact I|exact X2].
  - unfold poll. apply HI_tick_all; [lia|]. exact H.
  - destruct (recv_step l d0 b ip port H) as [(E & HH)|[(HH & LB & nc & x & E & IN & R)|(_ & HH)]]; [| |exact HH].
    + rewrite E. rewrite move_quiet by reflexivity. split; [exact HH|constructor].
    + rewrite E. rewrite move_quiet by reflexivity. split; [exact HH|]. eapply sends_reply; [reflexivity|eexists; right; reflexivity|constructor].
Qed.
Lemma HI_run ops : forall l d, HI l d -> HI (homes C d l ops) (fst (run C d ops)).
Proof.
  induction ops as [|(o, r) ops IH]; intros l d H; cbn [homes run]; [exact H|]. destruct (HI_step l d o r H) as (H1 & _). specialize (IH _ _ H1).
  destruct (step C d o r) as [d1 e1]. cbn [fst snd] in *. destruct (run C d1 ops) as [d2 e2]. exact IH.
Qed.
Lemma HI_init : HI [] dev_init.
Proof. split; [reflexivity|]. intros i Hi. do 8 (destruct i as [|i]; [reflexivity|]). lia. Qed.
Lemma homes_app l2 : forall l1 d l, homes C d l (l1 ++ l2) = homes C (fst (run C d l1)) (homes C d l l1) l2.
Proof.
  induction l1 as [|(o, r) l1 IH]; intros d l; cbn [app homes run]; [reflexivity|]. rewrite IH. destruct (step C d o r) as [d1 e1]. cbn [fst snd]. destruct (run C d1 l1) as [d2 e2]. reflexivity.
Qed.

(** After any calls [ops], during any further call, with any keys and any random
    numbers: *)
Theorem wg_sends_home : forall ops o r,
  sends C (homes C dev_init [] (ops ++ [(o, r)])) o (snd (step C (fst (run C dev_init ops)) o r)).
Proof.
  intros ops o r. rewrite homes_app. cbn [homes]. apply HI_step, (HI_run ops [] dev_init), HI_init.
Qed.

(** A datagram not authenticated as any peer's moves nobody, and is answered by at
    most one datagram, to its sender, shorter than itself.  The generator's blocks
    are at most the 32 bytes the code asks for at once. *)
Theorem wg_no_amplification : forall ops b ip port r,
  crypto_ok C -> Forall (fun x => zlen x <= 32) r ->
  let e := snd (step C (fst (run C dev_init ops)) (ORecv b ip port) r) in
  (forall i, existsb (heard i) e = false) ->
  homes C dev_init [] (ops ++ [(ORecv b ip port, r)]) = homes C dev_init [] ops /\
  (e = [] \/ exists x, e = [EUdp ip port x] /\ zlen x < zlen b).
Proof.
  intros ops b ip port r CK HR e HE. rewrite homes_app. cbn [homes homes_step]. fold e. rewrite move_quiet by exact HE. split; [reflexivity|].
  pose proof (HI_run ops [] dev_init HI_init) as H. set (d := fst (run C dev_init ops)) in *. unfold e, step in *. cbn [homes] in *.
  destruct (recv_step _ (up_rng (fst d) r, snd d) b ip port H) as [(E & _)|[(_ & LB & nc & x & E & IN & k & p & a & EX & s & m & EP)|((i & HI) & _)]].
  - left. exact E.
  - right. eexists. split; [exact E|]. destruct (co_xenc C CK k nc p a) as (c & EC & LC & _). rewrite EX in EC. injection EC as <-. rewrite EP, (co_mac C CK) in LC.
    cbn [fst up_rng g_rng] in IN. rewrite Forall_forall in HR. specialize (HR nc IN). cbn beta in HR. rewrite !zlen_app. assert (L4 : zlen (slice b 4 4) <= 4) by (unfold slice, zlen; rewrite firstn_length; lia).
    change (zlen (le32 3)) with 4. lia.
  - rewrite HE in HI. discriminate.
Qed.
End Home.
Print Assumptions wg_sends_home.
Print Assumptions wg_no_amplification.

(** *** Non-vacuity: B hears A's data from another place than the handshake's, and
    its next packet goes there; the same datagram again, from elsewhere, moves
    nothing.  A forged initiation under load is answered once. *)
Definition opsB3 : list (op * list (list Z)) := opsB1 ++ [(ORecv mData ipA 4242, [])].
Example home_toy :
  homes toy dev_init [] setupB = [(ipA, 51820)] /\
  homes toy dev_init [] opsB3 = [(ipA, 4242)] /\ homes toy dev_init [] (opsB3 ++ [(ORecv mData 99 9, [])]) = [(ipA, 4242)].
Proof. vm_compute. repeat split. Qed.
Example no_amplification_toy : crypto_ok toy /\
  let e := snd (step toy (fst (run toy dev_init ((OKey keyB, []) :: opsBL))) (ORecv mInit ipA 5555) [repeat 71 32; repeat 72 16]) in
  (forall i, existsb (heard i) e = false) /\ (exists c, e = [EUdp ipA 5555 c]) /\ zlen mInit = 246.
Proof. split; [exact toy_ok|]. vm_compute. split; [reflexivity|]. split; [eexists; reflexivity|reflexivity]. Qed.
