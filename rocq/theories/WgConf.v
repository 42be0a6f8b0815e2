(** What the calls so far have made of a wolfGuard device: its keys, its peers'
    keys, the initiation each peer's handshake waits on, the last initiation
    accepted from each peer.  An invariant of every history that sets the private
    key once, first. *)
From Verif Require Import Base ByteOrder Arp WgAllowedIps WgCounter WgDevice WgDeviceInv WgDeviceRun WgDeviceProps WgToy.

(** The last initiation created for peer [i]: its time and bytes; none if the last
    attempt failed. *)
Definition upI (i : Z) (acc : option (Z * list Z)) (e : ev) : option (Z * list Z) :=
  match e with EInit j t b => if j =? i then Some (t, b) else acc | EFail j => if j =? i then None else acc | _ => acc end.
Definition last_init (i : Z) (tr : list ev) : option (Z * list Z) := fold_left (upI i) tr None.
(** The last initiation accepted from peer [i]: its timestamp and when. *)
Definition upH (i : Z) (acc : option (list Z * Z)) (e : ev) : option (list Z * Z) :=
  match e with EHello j ts t => if j =? i then Some (ts, t) else acc | _ => acc end.
Definition last_hello (i : Z) (tr : list ev) : option (list Z * Z) := fold_left (upH i) tr None.
(** The peers added so far: public key and pre-shared key, in order. *)
Definition peers_of (ops : list (op * list (list Z))) : list (list Z * list Z) :=
  flat_map (fun o => match fst o with OPeer pub psk _ _ _ => [(pub, psk)] | _ => [] end) ops.
Definition no_rekey (ops : list (op * list (list Z))) : Prop := Forall (fun o => match fst o with OKey _ => False | _ => True end) ops.

Section Conf.
Context (C : crypto) (a A : list Z).

(** The handshake record [h] is the one left by creating initiation [b] at [t]. *)
Definition sent_init (mk : list Z) (h : hs) (t : Z) (b : list Z) : Prop :=
  exists g0 h0 g1 body mac2, g_pub g0 = A /\ g_now g0 = t /\ create_initiation C g0 h0 = (g1, h, Some body) /\
    b = body ++ c_hmac C mk body ++ mac2 /\ (mac2 = zbytes 32 \/ exists k m, mac2 = c_hmac C k m).

(** The cookie state remembers [m1], the first MAC of the message [b]. *)
Definition last_mac1 (m1 b : list Z) : Prop := exists k body mac2, m1 = c_hmac C k body /\ b = body ++ m1 ++ mac2 /\ (mac2 = zbytes 32 \/ exists k' x, mac2 = c_hmac C k' x).

Record GI (g : gdev) : Prop := {
  gi_priv : g_priv g = a; gi_pub : g_pub g = A;
  gi_mac : x_mac1key (g_chk g) = c_hash C (LABEL_MAC1 ++ A);
  gi_enc : x_enckey (g_chk g) = c_hash C (LABEL_COOKIE ++ A)
}.

Record PI (pub psk : list Z) (p : peer) (li : option (Z * list Z)) (lh : option (list Z * Z)) : Prop := {
  pi_act : p_active p = true;
  pi_pub : p_pub p = pub;
  pi_mac : c_mac1key (p_cookie p) = c_hash C (LABEL_MAC1 ++ pub);
  pi_dec : c_deckey (p_cookie p) = c_hash C (LABEL_COOKIE ++ pub);
  pi_hs : forall ss, c_dh C a pub = Some ss -> h_rstatic (p_hs p) = pub /\ h_ss (p_hs p) = ss /\ h_psk (p_hs p) = psk;
  pi_wait : h_state (p_hs p) = CreatedInit -> forall t b, li = Some (t, b) -> sent_init (c_hash C (LABEL_MAC1 ++ pub)) (p_hs p) t b;
  pi_last : h_state (p_hs p) = CreatedInit -> forall t b, li = Some (t, b) -> last_mac1 (c_last1 (p_cookie p)) b;
  pi_ts : match lh with None => p_ts p = zbytes 12 /\ p_lastinit p = 0 | Some (ts, t) => p_ts p = ts /\ p_lastinit p = t end
}.

(** Events of a function on peer [i]: initiations of that peer only, no hello. *)
Definition of_peer (i : Z) (e : list ev) : Prop :=
  Forall (fun x => match x with EInit j _ _ => j = i | EFail j => j = i | EHello _ _ _ => False | _ => True end) e.
Definition cact (i : Z) (f : act) : Prop := forall pub psk g p li lh, GI g -> PI pub psk p li lh ->
  let '(g', p', e) := f g p in GI g' /\ PI pub psk p' (fold_left (upI i) e li) lh /\ of_peer i e.

Lemma PI_fields pub psk p p' li lh : p_active p' = p_active p -> p_pub p' = p_pub p -> c_mac1key (p_cookie p') = c_mac1key (p_cookie p) ->
  c_deckey (p_cookie p') = c_deckey (p_cookie p) -> p_hs p' = p_hs p -> p_ts p' = p_ts p -> p_lastinit p' = p_lastinit p -> c_last1 (p_cookie p') = c_last1 (p_cookie p) ->
  PI pub psk p li lh -> PI pub psk p' li lh.
Proof. intros E1 E2 E3 E4 E5 E6 E7 E8 []. constructor; rewrite ?E1, ?E2, ?E3, ?E4, ?E5, ?E6, ?E7, ?E8; assumption. Qed.
(** A new handshake record with the same static part, not waiting. *)
Lemma PI_hs pub psk p h li lh : (forall ss, c_dh C a pub = Some ss -> h_rstatic h = pub /\ h_ss h = ss /\ h_psk h = psk) -> h_state h <> CreatedInit ->
  PI pub psk p li lh -> PI pub psk (up_hs p h) li lh.
Proof. intros H1 H2 []. constructor; cbn [up_hs p_active p_pub p_cookie p_hs p_ts p_lastinit]; try assumption; intros X; contradiction. Qed.
Lemma PI_static pub psk p h li lh : h_rstatic h = h_rstatic (p_hs p) -> h_ss h = h_ss (p_hs p) -> h_psk h = h_psk (p_hs p) -> h_state h <> CreatedInit ->
  PI pub psk p li lh -> PI pub psk (up_hs p h) li lh.
Proof. intros E1 E2 E3 E4 P. apply PI_hs; [|exact E4|exact P]. rewrite E1, E2, E3. apply (pi_hs _ _ _ _ _ P). Qed.

Lemma of_peer_nil i : of_peer i []. Proof. constructor. Qed.
Lemma of_peer_app i x y : of_peer i x -> of_peer i y -> of_peer i (x ++ y).
Proof. intros. apply Forall_app. split; assumption. Qed.
Ltac opx := repeat (constructor; [exact I || reflexivity|]); constructor.
Ltac pf := eapply PI_fields; [reflexivity..|].

Lemma c_skip i f : (forall g p, exists p' e, f g p = (g, p', e) /\ p_active p' = p_active p /\ p_pub p' = p_pub p /\ p_cookie p' = p_cookie p /\ p_hs p' = p_hs p /\
    p_ts p' = p_ts p /\ p_lastinit p' = p_lastinit p /\ of_peer i e /\ (forall li, fold_left (upI i) e li = li)) -> cact i f.
Proof.
  intros H pub psk g p li lh G P. destruct (H g p) as (p' & e & E & E1 & E2 & E3 & E4 & E5 & E6 & E7 & E8). rewrite E, E8. split; [exact G|]. split; [|exact E7].
  apply (PI_fields pub psk p); try assumption; rewrite E3; reflexivity.
Qed.
Lemma c_seq i f h : cact i f -> cact i h -> cact i (seq f h).
Proof.
  intros F H pub psk g p li lh G P. unfold seq. specialize (F pub psk g p li lh G P). destruct (f g p) as [[g1 p1] e1]. destruct F as (G1 & P1 & E1).
  specialize (H pub psk g1 p1 _ lh G1 P1). destruct (h g1 p1) as [[g2 p2] e2]. destruct H as (G2 & P2 & E2). split; [exact G2|]. rewrite fold_left_app. split; [exact P2|].
  apply of_peer_app; assumption.
Qed.

Lemma dh_generate_GI g g1 x : dh_generate C g = (g1, x) -> GI g -> GI g1.
Proof. unfold dh_generate. destruct (g_rng g); intros [= <- _] []; constructor; assumption. Qed.
Lemma new_index_GI g g1 x : new_index g = (g1, x) -> GI g -> GI g1.
Proof. unfold new_index. destruct (new_index_l _); intros [= <- _] []; constructor; assumption. Qed.
Lemma create_initiation_GI g h g1 h1 m : create_initiation C g h = (g1, h1, m) -> GI g ->
  GI g1 /\ h_rstatic h1 = h_rstatic h /\ h_ss h1 = h_ss h /\ h_psk h1 = h_psk h /\ (m <> None -> h_state h1 = CreatedInit) /\ (m = None -> h_state h1 = h_state h).
Proof.
  intros E G. revert E. unfold create_initiation. destruct (dh_generate C g) as [ga [[ep eb]|]] eqn:E1; [|intros [= <- <- <-]; apply dh_generate_GI in E1; [|exact G]; repeat split; congruence || apply E1].
  apply dh_generate_GI in E1; [|exact G].
  destruct (c_dh C ep (h_rstatic h)) as [d1|]; [|intros [= <- <- <-]; repeat split; congruence || apply E1]. destruct (kdf2 C _ d1) as [ck2 key].
  destruct (c_enc C key 0 _ _) as [es|]; [|intros [= <- <- <-]; repeat split; congruence || apply E1]. destruct (kdf2 C ck2 _) as [ck3 key2].
  destruct (c_enc C key2 0 _ _) as [et|]; [|intros [= <- <- <-]; repeat split; congruence || apply E1].
  destruct (new_index ga) as [gb idx] eqn:E2. apply new_index_GI in E2; [|exact E1].
  destruct (idx =? 0); intros [= <- <- <-]; repeat split; congruence || apply E2.
Qed.
Lemma create_response_GI g h g1 h1 m : create_response C g h = (g1, h1, m) -> GI g ->
  GI g1 /\ h_rstatic h1 = h_rstatic h /\ h_ss h1 = h_ss h /\ h_psk h1 = h_psk h /\ (h_state h1 = CreatedInit -> h1 = h) /\ (m <> None -> h_state h1 <> CreatedInit).
Proof.
  intros E G. revert E. unfold create_response. destruct (hs_eqb (h_state h) ConsumedInit) eqn:HS; cbn [negb]; [|intros [= <- <- <-]; repeat split; congruence || apply G].
  assert (HS' : h_state h = ConsumedInit) by (destruct (h_state h); cbn in HS; congruence).
  destruct (dh_generate C g) as [ga [[ep eb]|]] eqn:E1; [|intros [= <- <- <-]; apply dh_generate_GI in E1; [|exact G]; repeat split; congruence || apply E1].
  apply dh_generate_GI in E1; [|exact G].
  destruct (c_dh C ep (h_reph h)) as [d1|]; [|intros [= <- <- <-]; split; [exact E1|]; repeat split; cbn; congruence].
  destruct (c_dh C ep (h_rstatic h)) as [d2|]; [|intros [= <- <- <-]; split; [exact E1|]; repeat split; cbn; congruence].
  destruct (kdf3 C _ _) as [[ck4 tau] key]. destruct (c_enc C key 0 _ _) as [ee|]; [|intros [= <- <- <-]; split; [exact E1|]; repeat split; cbn; congruence].
  destruct (new_index ga) as [gb idx] eqn:E2. apply new_index_GI in E2; [|exact E1].
  destruct (idx =? 0); intros [= <- <- <-]; (split; [exact E2|]; repeat split; cbn; congruence).
Qed.

Lemma create_initiation_now g h g1 h1 m : create_initiation C g h = (g1, h1, m) -> g_now g1 = g_now g.
Proof. intros E. apply create_initiation_same in E. destruct E as (E & _). exact E. Qed.

Lemma c_initiate i : cact i (initiate C i).
Proof.
  intros pub psk g p li lh G P. unfold initiate. destruct (create_initiation C g (p_hs p)) as [[g1 h1] [m|]] eqn:E.
  - pose proof (create_initiation_GI _ _ _ _ _ E G) as (G1 & S1 & S2 & S3 & S4 & _). pose proof (create_initiation_now _ _ _ _ _ E) as EN.
    unfold add_macs. set (mac2 := if c_valid (p_cookie p) && (u64 (g_now g1 - c_birth (p_cookie p)) <=? COOKIE_AGE_MS)
      then c_hmac C (c_cookie (p_cookie p)) (m ++ c_hmac C (c_mac1key (p_cookie p)) m) else zbytes 32).
    assert (HM : mac2 = zbytes 32 \/ exists k x, mac2 = c_hmac C k x) by (unfold mac2; destruct (_ && _); [right; eexists _, _; reflexivity|left; reflexivity]). clearbody mac2.
    split; [exact G1|]. split; [|opx]. cbn [fold_left upI]. rewrite Z.eqb_refl. destruct P. constructor; cbn [up_tinit up_cookie up_hs p_active p_pub p_cookie c_mac1key c_deckey c_last1 p_hs p_ts p_lastinit]; try assumption.
    + intros ss HS. rewrite S1, S2, S3. apply pi_hs0, HS.
    + intros _ t b [= <- <-]. exists g, (p_hs p), g1, m, mac2. rewrite <- pi_mac0. split; [apply (gi_pub _ G)|]. split; [congruence|]. split; [exact E|]. split; [reflexivity|exact HM].
    + intros _ t b [= <- <-]. exists (c_mac1key (p_cookie p)), m, mac2. split; [reflexivity|]. split; [reflexivity|exact HM].
  - pose proof (create_initiation_GI _ _ _ _ _ E G) as (G1 & S1 & S2 & S3 & _ & S5). split; [exact G1|]. split; [|opx]. cbn [fold_left upI]. rewrite Z.eqb_refl.
    destruct P. constructor; cbn [up_hs p_active p_pub p_cookie p_hs p_ts p_lastinit]; try assumption; [|discriminate|discriminate]. intros ss HS. rewrite S1, S2, S3. apply pi_hs0, HS.
Qed.
Lemma handshake_init_conf pub psk ss : c_dh C a pub = Some ss ->
  h_rstatic (handshake_init C a pub psk) = pub /\ h_ss (handshake_init C a pub psk) = ss /\ h_psk (handshake_init C a pub psk) = psk.
Proof. intros E. unfold handshake_init. rewrite E. repeat split. Qed.
Lemma handshake_init_st x pub psk : h_state (handshake_init C x pub psk) = Zeroed.
Proof. unfold handshake_init. destruct (c_dh C x pub); reflexivity. Qed.
Lemma c_reset i : cact i (reset_handshake C).
Proof.
  intros pub psk g p li lh G P. unfold reset_handshake. split; [exact G|]. split; [|constructor]. cbn [fold_left]. apply PI_hs; [|rewrite handshake_init_st; discriminate|exact P].
  intros ss HS. rewrite (gi_priv _ G), (pi_pub _ _ _ _ _ P). destruct (pi_hs _ _ _ _ _ P ss HS) as (_ & _ & ->). apply handshake_init_conf, HS.
Qed.
Lemma c_send_init i : cact i (send_initiation C i). Proof. apply c_seq; [apply c_reset|apply c_initiate]. Qed.

(** Functions that leave keys, handshake and hello times alone. *)
Definition light (p p' : peer) : Prop := p_active p' = p_active p /\ p_pub p' = p_pub p /\ p_cookie p' = p_cookie p /\ p_hs p' = p_hs p /\ p_ts p' = p_ts p /\ p_lastinit p' = p_lastinit p.
Lemma PI_light pub psk p p' li lh : light p p' -> PI pub psk p li lh -> PI pub psk p' li lh.
Proof. intros (E1 & E2 & E3 & E4 & E5 & E6). apply PI_fields; congruence. Qed.
Lemma light_stage p pkt : light p (stage p pkt).
Proof. unfold stage. destruct (_ <=? _); repeat split. Qed.
Lemma c_packet i pkt : cact i (packet_send C i pkt).
Proof.
  intros pub psk g p li lh G P. unfold packet_send.
  assert (NS : let '(g', p', e) := (let p1 := stage p pkt in if hs_eqb (h_state (p_hs p1)) Zeroed then initiate C i g p1 else (g, p1, [])) in
    GI g' /\ PI pub psk p' (fold_left (upI i) e li) lh /\ of_peer i e).
  { cbn zeta. pose proof (PI_light _ _ _ _ _ _ (light_stage p pkt) P) as P1. destruct (hs_eqb _ _); [apply (c_initiate i pub psk g (stage p pkt) li lh G P1)|].
    split; [exact G|]. split; [exact P1|constructor]. }
  destruct (s_cur (p_kps p)) as [s|]; [|exact NS]. destruct (negb _); [exact NS|]. cbn zeta. clear NS.
  destruct (_ || _).
  { split; [exact G|]. split; [|constructor]. cbn [fold_left]. eapply PI_light; [apply light_stage|]. eapply PI_light; [|exact P]. repeat split. }
  destruct (_ <? _); [split; [exact G|]; split; [exact P|constructor]|]. destruct (c_enc C _ _ _ _) as [ct|]; [|split; [exact G|]; split; [exact P|constructor]].
  set (p2 := up_tsent _ _ _). assert (P2 : PI pub psk p2 li lh) by (eapply PI_light; [|exact P]; repeat split). clearbody p2.
  destruct (_ && _); [|split; [exact G|]; split; [exact P2|opx]].
  pose proof (c_initiate i pub psk g p2 li lh G P2) as X. destruct (initiate C i g p2) as [[g3 p3] e3]. destruct X as (X1 & X2 & X3). split; [exact X1|]. split; [exact X2|]. apply of_peer_app; [opx|exact X3].
Qed.
Lemma c_loop i n : forall j, cact i (staged_loop C i n j).
Proof.
  induction n as [|n IH]; intros j pub psk g p li lh G P; cbn [staged_loop]; [split; [exact G|]; split; [exact P|constructor]|].
  apply (c_seq i _ _ (c_packet i _) (IH (S j)) pub psk g _ li lh G). eapply PI_light; [|exact P]. repeat split.
Qed.
Lemma c_staged i : cact i (send_staged C i).
Proof. intros pub psk g p li lh G P. unfold send_staged. apply (c_loop i _ 0 pub psk g _ li lh G). eapply PI_light; [|exact P]. repeat split. Qed.
Lemma c_keep i : cact i (keepalive C i).
Proof.
  intros pub psk g p li lh G P. unfold keepalive. assert (N : GI g /\ PI pub psk p (fold_left (upI i) [] li) lh /\ of_peer i []) by (split; [exact G|]; split; [exact P|constructor]).
  destruct (s_cur (p_kps p)) as [s|]; [|exact N]. cbn zeta. destruct (negb _); [exact N|]. destruct (_ <=? _); [exact N|]. destruct (_ <=? _); [exact N|].
  destruct (c_enc C _ _ _ _) as [ct|]; [|exact N]. split; [exact G|]. split; [|opx]. cbn [fold_left upI]. eapply PI_light; [|exact P]. repeat split.
Qed.
Lemma c_first i : cact i (first_keepalive C i).
Proof.
  intros pub psk g p li lh G P. unfold first_keepalive. assert (N : GI g /\ PI pub psk p (fold_left (upI i) [] li) lh /\ of_peer i []) by (split; [exact G|]; split; [exact P|constructor]).
  destruct (s_cur (p_kps p)) as [s|]; [|exact N]. destruct (_ =? _); [apply (c_keep i pub psk g p li lh G P)|exact N].
Qed.
Lemma c_none i : cact i skip.
Proof. intros pub psk g p li lh G P. split; [exact G|]. split; [exact P|constructor]. Qed.
Lemma c_finish i x : cact i x -> cact i (finish C i x).
Proof.
  intros X pub psk g p li lh G P. unfold finish. destruct (begin_session C i g p) as [[p1 e1]|] eqn:E; [|split; [exact G|]; split; [exact P|constructor]].
  unfold begin_session in E. destruct (_ && _); [discriminate|]. destruct (kdf2 C _ _) as [t1 t2]. injection E as <- <-. set (p2 := up_tdone _ _).
  assert (P2 : PI pub psk p2 li lh).
  { set (h := hs_st _ Zeroed) in p2. apply (PI_light pub psk (up_hs p h)); [repeat split|]. apply PI_static; [reflexivity..|discriminate|exact P]. }
  clearbody p2. pose proof (c_seq i _ _ (c_staged i) X pub psk g p2 li lh G P2) as Q. destruct (seq (send_staged C i) x g p2) as [[g2 p3] e2]. destruct Q as (Q1 & Q2 & Q3).
  split; [exact Q1|]. split; [exact Q2|]. constructor; [exact I|exact Q3].
Qed.
Lemma c_answer i ip port : cact i (answer C i ip port).
Proof.
  intros pub psk g p li lh G P. unfold answer. set (p0 := up_ep p ip port). assert (P0 : PI pub psk p0 li lh) by (eapply PI_light; [|exact P]; repeat split). clearbody p0. clear P p.
  destruct (create_response C g (p_hs p0)) as [[g1 h1] m] eqn:E. pose proof (create_response_GI _ _ _ _ _ E G) as (G1 & S1 & S2 & S3 & S4 & S5).
  assert (P1 : PI pub psk (up_hs p0 h1) li lh).
  { destruct P0. constructor; cbn [up_hs p_active p_pub p_cookie p_hs p_ts p_lastinit]; try assumption.
    - rewrite S1, S2, S3. assumption.
    - intros HS. pose proof (S4 HS) as EH. rewrite EH in HS |- *. apply pi_wait0, HS.
    - intros HS. pose proof (S4 HS) as EH. rewrite EH in HS. apply pi_last0, HS. }
  destruct m as [m|]; [|split; [exact G1|]; split; [exact P1|constructor]]. unfold add_macs. set (p2 := up_cookie _ _).
  assert (P2 : PI pub psk p2 li lh) by (destruct P1; constructor; cbn [p2 up_cookie up_hs p_active p_pub p_cookie c_mac1key c_deckey p_hs p_ts p_lastinit] in *; try assumption; intros HS; destruct (S5 ltac:(discriminate) HS)). clearbody p2.
  pose proof (c_finish i skip (c_none i) pub psk g1 p2 li lh G1 P2) as Q. destruct (finish C i skip g1 p2) as [[g2 p3] e2]. destruct Q as (Q1 & Q2 & Q3).
  split; [exact Q1|]. split; [exact Q2|]. constructor; [exact I|exact Q3].
Qed.
Lemma c_jitter i : cact i jitter.
Proof.
  intros pub psk g p li lh G P. unfold jitter. destruct (g_rng g); (split; [destruct G; constructor; assumption|]; split; [|constructor]; cbn [fold_left]; eapply PI_light; [|exact P]; repeat split).
Qed.
Lemma c_ka i : cact i (fun g p => let '(g1, p1, e) := keepalive C i g p in (g1, up_tka p1 (g_now g), e)).
Proof.
  intros pub psk g p li lh G P. pose proof (c_keep i pub psk g p li lh G P) as Q. destruct (keepalive C i g p) as [[g1 p1] e1]. destruct Q as (Q1 & Q2 & Q3). split; [exact Q1|]. split; [|exact Q3].
  apply (PI_light pub psk p1); [repeat split|exact Q2].
Qed.
Lemma c_js i : cact i (seq jitter (send_initiation C i)).
Proof. apply c_seq; [apply c_jitter|apply c_send_init]. Qed.
Lemma c_tick i : cact i (tick C i).
Proof.
  assert (N : forall pub psk g p li lh, GI g -> PI pub psk p li lh -> GI g /\ PI pub psk p (fold_left (upI i) [] li) lh /\ of_peer i []) by (intros; split; [assumption|]; split; [assumption|constructor]).
  assert (T1 : cact i (tm_retransmit C i)).
  { intros pub psk g p li lh G P. unfold tm_retransmit. destruct (_ || _); [apply N; assumption|]. destruct (_ <=? _).
    - pose proof (c_reset i pub psk g p li lh G P) as Q. destruct (reset_handshake C g p) as [[g1 p1] e]. destruct Q as (Q1 & Q2 & Q3). split; [exact Q1|]. split; [|exact Q3].
      apply (PI_light pub psk p1); [repeat split|exact Q2].
    - destruct (_ <=? _); [apply c_send_init; assumption|apply N; assumption]. }
  assert (T2 : cact i (tm_passive C i)).
  { intros pub psk g p li lh G P. unfold tm_passive. destruct (s_cur _); [|apply N; assumption]. destruct (negb _); [apply N; assumption|]. destruct (_ || _); [apply N; assumption|].
    destruct (_ && _); [apply N; assumption|]. destruct (_ && _); [apply N; assumption|]. apply (c_ka i pub psk g p li lh G P). }
  assert (T3 : cact i (tm_rekey C i)).
  { intros pub psk g p li lh G P. unfold tm_rekey. destruct (s_cur _); [|apply N; assumption]. cbn zeta. destruct (_ || _); [apply N; assumption|]. destruct (_ <? _); [apply N; assumption|].
    apply (c_js i pub psk g p li lh G P). }
  assert (T4 : cact i (tm_stale C i)).
  { intros pub psk g p li lh G P. unfold tm_stale. destruct (s_cur _); [|apply N; assumption]. destruct (_ || _); [apply N; assumption|]. destruct (_ && _); [apply N; assumption|].
    destruct (_ && _); [apply N; assumption|]. apply (c_js i pub psk g p li lh G P). }
  assert (T5 : cact i (tm_zero C)).
  { intros pub psk g p li lh G P. unfold tm_zero. destruct (s_cur _); [|apply N; assumption]. destruct (_ <? _); [apply N; assumption|].
    apply (c_reset i pub psk g (up_kps p kps_zero) li lh G). apply (PI_light pub psk p); [repeat split|exact P]. }
  assert (T6 : cact i (tm_persistent C i)).
  { intros pub psk g p li lh G P. unfold tm_persistent. destruct (_ =? _); [apply N; assumption|]. destruct (s_cur _); [|apply N; assumption]. destruct (negb _); [apply N; assumption|].
    destruct (_ && _); [apply N; assumption|]. apply (c_ka i pub psk g p li lh G P). }
  intros pub psk g p li lh G P. unfold tick. destruct (negb _); [apply N; assumption|].
  apply (c_seq i _ _ T1 (c_seq i _ _ T2 (c_seq i _ _ T3 (c_seq i _ _ T4 (c_seq i _ _ T5 T6)))) pub psk g p li lh G P).
Qed.

(** ** The device *)
Definition CI (l : list (list Z * list Z)) (d : dev) (tr : list ev) : Prop :=
  length (snd d) = 8%nat /\ GI (fst d) /\ forall i, (i < 8)%nat ->
    match nth_error l i with
    | Some (pub, psk) => PI pub psk (nth i (snd d) peer_zero) (last_init (Z.of_nat i) tr) (last_hello (Z.of_nat i) tr)
    | None => p_active (nth i (snd d) peer_zero) = false /\ last_init (Z.of_nat i) tr = None /\ last_hello (Z.of_nat i) tr = None
    end.

Lemma last_init_app i x y : last_init i (x ++ y) = fold_left (upI i) y (last_init i x).
Proof. apply fold_left_app. Qed.
Lemma last_hello_app i x y : last_hello i (x ++ y) = fold_left (upH i) y (last_hello i x).
Proof. apply fold_left_app. Qed.
Lemma upI_other i j e : of_peer j e -> i <> j -> forall acc, fold_left (upI i) e acc = acc.
Proof.
  intros F N. induction F as [|x e H F IH]; intros acc; [reflexivity|]. cbn [fold_left]. rewrite IH. destruct x; try reflexivity; cbn in *; subst; destruct (Z.eqb_spec j i); congruence.
Qed.
Lemma upH_none i j e : of_peer j e -> forall acc, fold_left (upH i) e acc = acc.
Proof. intros F. induction F as [|x e H F IH]; intros acc; [reflexivity|]. cbn [fold_left]. rewrite IH. destruct x; try reflexivity; destruct H. Qed.

(** Inactive slots are never worked on. *)
Lemma CI_on_peer l d i f tr : (i < 8)%nat -> nth_error l i <> None -> cact (Z.of_nat i) f -> CI l d tr ->
  CI l (fst (on_peer d i f)) (tr ++ snd (on_peer d i f)).
Proof.
  intros Hi HL F (L & G & P). unfold on_peer. pose proof (P i Hi) as Pi. destruct (nth_error l i) as [[pub psk]|] eqn:EL; [|congruence].
  specialize (F pub psk (fst d) _ _ _ G Pi). destruct (f _ _) as [[g1 p1] e]. destruct F as (G1 & P1 & E1). cbn [fst snd]. split; [cbn [snd]; rewrite lset_length; exact L|]. split; [exact G1|].
  intros j Hj. cbn [snd]. rewrite last_init_app, last_hello_app, (upH_none _ _ _ E1). destruct (Nat.eq_dec j i) as [->|NJ].
  - rewrite EL, nth_lset_eq by lia. exact P1.
  - rewrite nth_lset_ne by exact NJ. rewrite (upI_other _ _ _ E1) by lia. apply P, Hj.
Qed.
Lemma CI_set l d i p g e tr : (i < 8)%nat -> GI g ->
  (forall pub psk li lh, nth_error l i = Some (pub, psk) -> PI pub psk (nth i (snd d) peer_zero) li lh -> PI pub psk p (fold_left (upI (Z.of_nat i)) e li) (fold_left (upH (Z.of_nat i)) e lh)) ->
  (forall j, j <> i -> forall li lh, fold_left (upI (Z.of_nat j)) e li = li /\ fold_left (upH (Z.of_nat j)) e lh = lh) ->
  nth_error l i <> None -> CI l d tr -> CI l (g, lset (snd d) i p) (tr ++ e).
Proof.
  intros Hi G1 HP HO HL (L & G & P). split; [cbn [snd]; rewrite lset_length; exact L|]. split; [exact G1|]. intros j Hj. cbn [snd]. rewrite last_init_app, last_hello_app.
  pose proof (P j Hj) as Pj. destruct (Nat.eq_dec j i) as [->|NJ].
  - destruct (nth_error l i) as [[pub psk]|] eqn:EL; [|congruence]. rewrite nth_lset_eq by lia. apply HP; [reflexivity|exact Pj].
  - rewrite nth_lset_ne by exact NJ. destruct (HO j NJ (last_init (Z.of_nat j) tr) (last_hello (Z.of_nat j) tr)) as (-> & ->). exact Pj.
Qed.
Lemma CI_active l d tr i : CI l d tr -> (i < 8)%nat -> p_active (nth i (snd d) peer_zero) = true -> nth_error l i <> None.
Proof. intros (_ & _ & P) Hi H E. specialize (P i Hi). rewrite E in P. destruct P as (P & _). congruence. Qed.

Lemma CI_tick_all l n : forall d i tr, (i + n <= 8)%nat -> CI l d tr -> CI l (fst (tick_all C d n i)) (tr ++ snd (tick_all C d n i)).
Proof.
  induction n as [|n IH]; intros d i tr Hi H; cbn [tick_all]; [cbn [fst snd]; rewrite app_nil_r; exact H|].
  assert (H1 : CI l (fst (on_peer d i (tick C (Z.of_nat i)))) (tr ++ snd (on_peer d i (tick C (Z.of_nat i))))).
  { destruct (nth_error l i) as [x|] eqn:EL; [apply CI_on_peer; [lia|congruence|apply c_tick|exact H]|].
    destruct H as (L & G & P). pose proof (P i ltac:(lia)) as Pi. rewrite EL in Pi. destruct Pi as (Pi & _). unfold on_peer, tick. rewrite Pi. cbn [negb fst snd]. rewrite app_nil_r.
    split; [cbn [snd]; rewrite lset_length; exact L|]. split; [exact G|]. intros j Hj. cbn [snd]. destruct (Nat.eq_dec j i) as [->|NJ]; [rewrite nth_lset_eq by lia; apply P, Hj|]. rewrite nth_lset_ne by exact NJ. apply P, Hj. }
  destruct (on_peer d i _) as [d1 e1]. cbn [fst snd] in *. specialize (IH d1 (S i) _ ltac:(lia) H1). destruct (tick_all C d1 n (S i)) as [d2 e2]. cbn [fst snd] in *. rewrite app_assoc. exact IH.
Qed.
Lemma CI_g l g g' ps tr : GI g' -> CI l (g, ps) tr -> CI l (g', ps) tr.
Proof. intros G (L & _ & P). split; [exact L|]. split; [exact G|exact P]. Qed.
Lemma GI_hpc g n : GI g -> GI (up_hpc g n). Proof. intros []. constructor; assumption. Qed.
Lemma CI_reply l d b off ip port tr : CI l d tr -> CI l (fst (send_reply C d b off ip port)) (tr ++ snd (send_reply C d b off ip port)).
Proof.
  intros H. unfold send_reply, create_reply.
  assert (X : forall g e, GI g -> (forall i li, fold_left (upI i) e li = li) -> (forall i li, fold_left (upH i) e li = li) -> CI l (g, snd d) (tr ++ e)).
  { intros g e G E1 E2. destruct H as (L & _ & P). split; [exact L|]. split; [exact G|]. intros i Hi. rewrite last_init_app, last_hello_app, E1, E2. apply P, Hi. }
  assert (G0 : GI (fst d)) by apply H.
  assert (R : forall g r, GI g -> GI (up_rng g r)) by (intros g r []; constructor; assumption).
  assert (K : forall g b t, GI g -> GI (up_chk g (mkChecker b t (x_enckey (g_chk g)) (x_mac1key (g_chk g))))) by (intros g b0 t []; constructor; assumption).
  destruct (_ <? _).
  - destruct (g_rng (fst d)) as [|b0 r]; cbn [negb]; [cbn [fst snd]; apply X; auto|]. cbn [up_chk g_rng up_rng]. destruct r as [|nc r]; [cbn [fst snd]; apply X; auto|].
    + apply (K (up_rng (fst d) [])). auto.
    + destruct (c_xenc C _ _ _ _); cbn [fst snd]; apply X; auto; destruct G0; constructor; assumption.
  - cbn [negb]. destruct (g_rng (fst d)) as [|b0 r]; [cbn [fst snd]; apply X; auto|]. destruct (c_xenc C _ _ _ _); cbn [fst snd]; apply X; auto.
Qed.

Definition opkey (o : op) : Prop := match o with OKey _ => False | _ => True end.
Lemma nth_error_snoc {X} (l : list X) x i : nth_error (l ++ [x]) i = if (i <? length l)%nat then nth_error l i else if (i =? length l)%nat then Some x else None.
Proof.
  destruct (Nat.ltb_spec i (length l)); [apply nth_error_app1; assumption|]. rewrite nth_error_app2 by assumption. destruct (Nat.eqb_spec i (length l)) as [->|]; [rewrite Nat.sub_diag; reflexivity|].
  destruct (i - length l)%nat as [|k] eqn:E; [lia|]. destruct k; reflexivity.
Qed.
Lemma find_pub_active ps pub : forall i j, find_pub ps pub i = Some j -> (i <= j < i + length ps)%nat /\ p_active (nth (j - i) ps peer_zero) = true /\ p_pub (nth (j - i) ps peer_zero) = pub.
Proof.
  induction ps as [|p ps IH]; intros i j; cbn [find_pub]; [discriminate|]. destruct (p_active p && leqb (p_pub p) pub) eqn:E.
  - intros [= <-]. rewrite Nat.sub_diag. cbn [nth length]. apply andb_true_iff in E. destruct E as (E1 & E2). apply leqb_eq in E2. split; [lia|]. split; assumption.
  - intros H. apply IH in H. destruct H as (H1 & H2). cbn [length]. split; [lia|]. replace (j - i)%nat with (S (j - S i)) by lia. exact H2.
Qed.
Lemma find_wait_active ps x : forall i j, find_wait ps x i = Some j -> p_active (nth (j - i) ps peer_zero) = true /\ h_state (p_hs (nth (j - i) ps peer_zero)) = CreatedInit /\ h_lidx (p_hs (nth (j - i) ps peer_zero)) = x.
Proof.
  induction ps as [|p ps IH]; intros i j; cbn [find_wait]; [discriminate|]. destruct (p_active p && hs_eqb (h_state (p_hs p)) CreatedInit && (h_lidx (p_hs p) =? x)) eqn:E.
  - intros [= <-]. rewrite Nat.sub_diag. cbn [nth]. apply andb_true_iff in E. destruct E as (E & E3). apply andb_true_iff in E. destruct E as (E1 & E2). split; [exact E1|].
    split; [destruct (h_state (p_hs p)); cbn in E2; congruence|lia].
  - intros H. pose proof (find_wait_bound _ _ _ _ H). apply IH in H. replace (j - i)%nat with (S (j - S i)) by lia. exact H.
Qed.
Lemma find_mac1_active ps x : forall i j, find_mac1 ps x i = Some j -> p_active (nth (j - i) ps peer_zero) = true.
Proof.
  induction ps as [|p ps IH]; intros i j; cbn [find_mac1]; [discriminate|]. destruct (p_active p && c_sent1 (p_cookie p) && (h_lidx (p_hs p) =? x)) eqn:E.
  - intros [= <-]. rewrite Nat.sub_diag. cbn [nth]. apply andb_true_iff in E. destruct E as (E & E3). apply andb_true_iff in E. destruct E as (E1 & E2). exact E1.
  - intros H. pose proof (find_mac1_bound _ _ _ _ H). apply IH in H. replace (j - i)%nat with (S (j - S i)) by lia. exact H.
Qed.
Lemma find_idx_active ps x : forall i j s, find_idx ps x i = Some (j, s) -> p_active (nth (j - i) ps peer_zero) = true.
Proof.
  induction ps as [|p ps IH]; intros i j s; cbn [find_idx]; [discriminate|]. destruct (p_active p) eqn:EA; cbn [negb].
  - destruct (match_idx _ (s_cur _) _); [destruct (s_cur _); [intros [= <- _]; rewrite Nat.sub_diag; exact EA|discriminate]|].
    destruct (match_idx _ (s_prev _) _); [destruct (s_prev _); [intros [= <- _]; rewrite Nat.sub_diag; exact EA|discriminate]|].
    destruct (match_idx _ (s_next _) _); [destruct (s_next _); [intros [= <- _]; rewrite Nat.sub_diag; exact EA|discriminate]|].
    intros H. pose proof (find_idx_spec _ _ _ _ _ H) as (B & _). apply IH in H. replace (j - i)%nat with (S (j - S i)) by lia. exact H.
  - intros H. pose proof (find_idx_spec _ _ _ _ _ H) as (B & _). apply IH in H. replace (j - i)%nat with (S (j - S i)) by lia. exact H.
Qed.

Lemma GI_rng g r : GI g -> GI (up_rng g r). Proof. intros []. constructor; assumption. Qed.
Lemma CI_add l d pub psk ip port ka tr : CI l d tr -> CI (l ++ [(pub, psk)]) (add_peer C d pub psk ip port ka) tr.
Proof.
  intros (L & G & P). unfold add_peer. destruct (find_free (snd d) 0) as [j|] eqn:E.
  - apply find_free_spec in E. rewrite Nat.sub_0_r in E. destruct E as (E1 & E2 & E3).
    assert (EJ : j = length l).
    { destruct (Nat.lt_trichotomy j (length l)) as [X|[X|X]]; [|exact X|].
      - pose proof (P j ltac:(lia)) as Pj. destruct (nth_error l j) as [[x y]|] eqn:EN; [|apply nth_error_None in EN; lia]. destruct Pj. congruence.
      - specialize (E3 (length l) ltac:(lia)). pose proof (P (length l) ltac:(lia)) as Pj. assert (nth_error l (length l) = None) as EN by (apply nth_error_None; lia). rewrite EN in Pj. destruct Pj. congruence. }
    split; [cbn [snd]; rewrite lset_length; exact L|]. split; [exact G|]. intros i Hi. cbn [snd]. rewrite nth_error_snoc. pose proof (P i Hi) as Pi.
    destruct (Nat.ltb_spec i (length l)) as [LT|GE]; [rewrite nth_lset_ne by lia; exact Pi|]. destruct (Nat.eqb_spec i (length l)) as [EI|NE].
    + assert (EN : nth_error l i = None) by (apply nth_error_None; lia). rewrite EN in Pi. destruct Pi as (_ & P1 & P2). rewrite P1, P2. replace j with i by lia. rewrite nth_lset_eq by lia.
      constructor; cbn [new_peer p_active p_pub p_cookie c_mac1key c_deckey p_hs p_ts p_lastinit]; try reflexivity.
      * intros ss HS. rewrite (gi_priv _ G). apply handshake_init_conf, HS.
      * rewrite handshake_init_st. discriminate.
      * rewrite handshake_init_st. discriminate.
      * split; reflexivity.
    + rewrite nth_lset_ne by lia. assert (EN : nth_error l i = None) by (apply nth_error_None; lia). rewrite EN in Pi. exact Pi.
  - split; [exact L|]. split; [exact G|]. intros i Hi. pose proof (P i Hi) as Pi. pose proof (find_free_none _ _ E i ltac:(lia)) as X. rewrite nth_error_snoc.
    destruct (nth_error l i) as [[x y]|] eqn:EN; [|destruct Pi; congruence]. assert (i < length l)%nat by (apply nth_error_Some; congruence). destruct (Nat.ltb_spec i (length l)); [exact Pi|lia].
Qed.

Lemma CI_step l d o r tr : CI l d tr -> opkey o -> CI (l ++ peers_of [(o, r)]) (fst (step C d o r)) (tr ++ snd (step C d o r)).
Proof.
  intros H0 NK. unfold step. set (d0 := (up_rng (fst d) r, snd d)).
  assert (H : CI l d0 tr) by (destruct H0 as (L & G & P); split; [exact L|]; split; [apply GI_rng, G|exact P]). clearbody d0. clear H0 d.
  destruct o as [priv|pub psk ip port ka|i ip cidr|pkt|now|b ip port]; cbn [peers_of flat_map fst app]; [destruct NK|..]; rewrite ?app_nil_r.
  - cbn [snd fst]. rewrite ?app_nil_r. apply CI_add, H.
  - cbn [snd fst]. rewrite ?app_nil_r. unfold add_allowed. destruct (_ || _); [exact H|]. destruct (negb _); [exact H|]. destruct d0 as [g ps]. eapply CI_g; [|exact H]. destruct H as (_ & [] & _). constructor; assumption.
  - unfold output. destruct (wolfguard_output _ _ pkt) as [i|] eqn:EO; [|cbn [fst snd]; rewrite app_nil_r; exact H].
    unfold wolfguard_output in EO. destruct (zlen pkt <? 20); [discriminate|]. destruct (negb _); [discriminate|]. cbn zeta in EO.
    destruct ((aips_lookup (g_aips (fst d0)) (load_le32 (skipn 16 pkt)) <? 0) || (8 <=? aips_lookup (g_aips (fst d0)) (load_le32 (skipn 16 pkt)))) eqn:EB; [discriminate|].
    destruct (p_active (nth (Z.to_nat (aips_lookup (g_aips (fst d0)) (load_le32 (skipn 16 pkt)))) (snd d0) peer_zero)) eqn:EA; cbn [negb] in EO; [|discriminate].
    apply orb_false_iff in EB. destruct EB as (EB1 & EB2). assert (EI : aips_lookup (g_aips (fst d0)) (load_le32 (skipn 16 pkt)) = i) by congruence.
    rewrite EI in *. assert (0 <= i < 8) by lia. clear EO EB1 EB2 EI.
    assert (H1 : CI l d0 (tr ++ [EOut i pkt])). { destruct H as (L & G & P). split; [exact L|]. split; [exact G|]. intros j Hj. rewrite last_init_app, last_hello_app. apply P, Hj. }
    pose proof (CI_on_peer l d0 (Z.to_nat i) (packet_send C i pkt) _ ltac:(lia) (CI_active _ _ _ (Z.to_nat i) H ltac:(lia) EA) ltac:(rewrite Z2Nat.id by lia; apply c_packet) H1) as X.
    destruct (on_peer _ _ _) as [d' e]. cbn [fst snd] in *. rewrite <- app_assoc in X. exact X.
  - unfold poll. apply CI_tick_all; [lia|]. destruct d0 as [g ps]. eapply CI_g; [|exact H]. destruct H as (_ & [] & _). constructor; assumption.
  - unfold packet_receive. assert (HN : CI l d0 (tr ++ [])) by (rewrite app_nil_r; exact H). destruct (zlen b <? 4); [exact HN|]. cbn zeta. destruct d0 as [g ps].
    pose proof H as (L & G & P). cbn [fst snd] in L, G, P.
    assert (H1 : CI l (up_hpc g (u16 (g_hpc g + 1)), ps) (tr ++ [])) by (eapply CI_g; [apply GI_hpc, G|exact HN]).
    destruct (_ =? 1); [|destruct (_ =? 2); [|destruct (_ =? 3); [|destruct (_ =? 4); [|exact HN]]]].
    + unfold handle_initiation. destruct (zlen b <? INIT_LEN); [exact HN|].
      assert (QQ : forall st, let res := (if g_load g && negb (match st with MacCookie => true | _ => false end)
        then send_reply C (g, ps) b (Z.to_nat INIT_MAC) ip port else let g1 := up_hpc g (u16 (g_hpc g + 1)) in
        match consume_initiation C g1 ps b with None => ((g1, ps), []) | Some (i, p, ts) =>
          let (d', e) := on_peer (g1, lset ps i p) i (answer C (Z.of_nat i) ip port) in (d', EHello (Z.of_nat i) ts (g_now g) :: e) end) in CI l (fst res) (tr ++ snd res)).
      { intros st. cbn zeta. match goal with |- context [if ?x then send_reply _ _ _ _ _ _ else _] => destruct x end; [apply CI_reply, H|].
        set (g1 := up_hpc _ _) in *. assert (EG : g_now g1 = g_now g) by reflexivity. assert (GG : GI g1) by (apply GI_hpc, G). clearbody g1. destruct (consume_initiation C g1 ps b) as [[[k p] ts]|] eqn:EC; [|exact H1].
        assert (X : (k < 8)%nat /\ p_active (nth k ps peer_zero) = true /\ p = up_hello (up_hs (nth k ps peer_zero) (p_hs p)) ts (g_now g) /\ h_state (p_hs p) = ConsumedInit /\
          h_rstatic (p_hs p) = h_rstatic (p_hs (nth k ps peer_zero)) /\ h_ss (p_hs p) = h_ss (p_hs (nth k ps peer_zero)) /\ h_psk (p_hs p) = h_psk (p_hs (nth k ps peer_zero))).
        { revert EC. unfold consume_initiation. destruct (c_dh C _ _); [|discriminate]. destruct (kdf2 C _ _) as [ck2 key]. destruct (c_dec C _ _ _ _) as [sp|]; [|discriminate]. cbn zeta.
          destruct (find_pub ps sp 0) as [k'|] eqn:EP; [|discriminate]. apply find_pub_active in EP. rewrite Nat.sub_0_r in EP. destruct (_ && _); [discriminate|]. destruct (kdf2 C ck2 _) as [ck3 key2].
          destruct (c_dec C _ _ _ _) as [ts'|]; [|discriminate]. destruct (negb _); [discriminate|]. intros [= <- <- <-]. split; [lia|]. split; [apply EP|]. rewrite EG. split; [reflexivity|]. repeat split. }
        destruct X as (X1 & X2 & X3 & X4 & X5 & X6 & X7). set (h' := p_hs p) in *. clearbody h'. subst p.
        assert (HL : nth_error l k <> None) by (apply (CI_active l (g, ps) tr); assumption).
        assert (H2 : CI l (g1, lset ps k (up_hello (up_hs (nth k ps peer_zero) h') ts (g_now g))) (tr ++ [EHello (Z.of_nat k) ts (g_now g)])).
        { apply (CI_set l (g, ps) k _ g1 [EHello (Z.of_nat k) ts (g_now g)] tr X1 GG); [|  |exact HL|exact H].
          - intros pub psk li lh _ Pk. cbn [snd] in Pk. cbn [fold_left upI upH]. rewrite Z.eqb_refl.
            assert (Pk' : PI pub psk (up_hs (nth k ps peer_zero) h') li lh) by (apply PI_static; [exact X5|exact X6|exact X7|congruence|exact Pk]).
            destruct Pk'. constructor; cbn [up_hello up_hs p_active p_pub p_cookie p_hs p_ts p_lastinit] in *; try assumption. split; reflexivity.
          - intros j NJ li lh. cbn [fold_left upI upH]. destruct (Z.eqb_spec (Z.of_nat k) (Z.of_nat j)); [lia|]. split; reflexivity. }
        pose proof (CI_on_peer l _ k (answer C (Z.of_nat k) ip port) _ X1 HL (c_answer _ ip port) H2) as X. destruct (on_peer _ _ _) as [d' e]. cbn [fst snd] in *. rewrite <- app_assoc in X. exact X. }
      destruct (cookie_validate C (g_chk g) b (Z.to_nat INIT_MAC) ip port (g_now g)); [exact HN|exact (QQ MacValid)|exact (QQ MacCookie)].
    + unfold handle_response. destruct (zlen b <? RESP_LEN); [exact HN|].
      assert (QQ : forall st, let res := (if g_load g && negb (match st with MacCookie => true | _ => false end)
        then send_reply C (g, ps) b (Z.to_nat RESP_MAC) ip port else let g1 := up_hpc g (u16 (g_hpc g + 1)) in
        match find_wait ps (mr_receiver b) 0 with None => ((g1, ps), []) | Some i => let p := nth i ps peer_zero in
          match consume_response C g1 (p_hs p) b with None => ((g1, ps), []) | Some h1 =>
             on_peer (g1, lset ps i (up_ep (up_hs p h1) ip port)) i (finish C (Z.of_nat i) (first_keepalive C (Z.of_nat i))) end end) in CI l (fst res) (tr ++ snd res)).
      { intros st. cbn zeta. match goal with |- context [if ?x then send_reply _ _ _ _ _ _ else _] => destruct x end; [apply CI_reply, H|].
        destruct (find_wait ps (mr_receiver b) 0) as [k|] eqn:EF; [|exact H1]. pose proof (find_wait_active _ _ _ _ EF) as (FA & _). apply find_wait_bound in EF. rewrite Nat.sub_0_r in FA.
        set (g1 := up_hpc _ _) in *. destruct (consume_response C g1 (p_hs (nth k ps peer_zero)) b) as [h1|] eqn:EC; [|exact H1].
        assert (X : h_state h1 = ConsumedResp /\ h_rstatic h1 = h_rstatic (p_hs (nth k ps peer_zero)) /\ h_ss h1 = h_ss (p_hs (nth k ps peer_zero)) /\ h_psk h1 = h_psk (p_hs (nth k ps peer_zero))).
        { revert EC. unfold consume_response. destruct (negb _); [discriminate|]. cbn zeta. destruct (c_dh _ _ _); [|discriminate]. destruct (c_dh _ _ _); [|discriminate].
          destruct (kdf3 C _ _) as [[? ?] ?]. destruct (c_dec _ _ _ _ _); [|discriminate]. intros EC. injection EC as <-. repeat split. }
        destruct X as (X4 & X5 & X6 & X7).
        assert (HL : nth_error l k <> None) by (apply (CI_active l (g, ps) tr); [exact H|lia|exact FA]).
        apply CI_on_peer; [lia|exact HL|apply c_finish, c_first|]. rewrite <- (app_nil_r tr). apply (CI_set l (g, ps) k _ g1 [] tr); [lia|apply GI_hpc, G| | |exact HL|exact H].
        - intros pub psk li lh _ Pk. cbn [snd fold_left] in *. apply (PI_light pub psk (up_hs (nth k ps peer_zero) h1)); [repeat split|]. apply PI_static; [exact X5|exact X6|exact X7|congruence|exact Pk].
        - intros. split; reflexivity. }
      destruct (cookie_validate C (g_chk g) b (Z.to_nat RESP_MAC) ip port (g_now g)); [exact HN|exact (QQ MacValid)|exact (QQ MacCookie)].
    + unfold handle_cookie. destruct (zlen b <? 72); [exact HN|]. destruct (find_mac1 _ _ 0) as [k|] eqn:EF; [|exact HN]. cbn [fst snd].
      pose proof (find_mac1_active _ _ _ _ EF) as FA. apply find_mac1_bound in EF. rewrite Nat.sub_0_r in FA.
      apply (CI_set l (g, ps) k _ g [] tr); [lia|exact G| | |apply (CI_active l (g, ps) tr); [exact H|lia|exact FA]|exact H]; [|intros; split; reflexivity].
      intros pub psk li lh _ Pk. cbn [snd fold_left] in *. apply (PI_fields pub psk (nth k ps peer_zero)); try reflexivity; [| | |exact Pk]; cbn [up_cookie p_cookie]; unfold consume_reply; destruct (negb _); try reflexivity; destruct (c_xdec C _ _ _ _); reflexivity.
    + unfold handle_data. destruct (zlen b <? 32); [exact HN|]. cbn zeta. destruct (find_idx ps _ 0) as [[k s]|] eqn:EF; [|exact HN].
      pose proof (find_idx_active _ _ _ _ _ EF) as FA. apply find_idx_spec in EF. rewrite Nat.sub_0_r in FA.
      assert (HL : nth_error l k <> None) by (apply (CI_active l (g, ps) tr); [exact H|lia|exact FA]).
      destruct (negb _); [exact HN|]. destruct (_ <=? _); [exact HN|]. destruct (_ <? _); [exact HN|]. destruct (c_dec _ _ _ _ _) as [pt|]; [|exact HN].
      destruct (wg_counter_validate _ _) as [rx ok]. destruct ok; cbn [negb fst snd].
      * apply (CI_set l (g, ps) k _ g _ tr); [lia|exact G| | |exact HL|exact H].
        -- intros pub psk li lh _ Pk. cbn [snd] in *. destruct (wg_inject _ _ _); cbn [fold_left upI upH]; (apply (PI_light pub psk (nth k ps peer_zero)); [repeat split|exact Pk]).
        -- intros j NJ li lh. destruct (wg_inject _ _ _); split; reflexivity.
      * apply (CI_set l (g, ps) k _ g [] tr); [lia|exact G| | |exact HL|exact H]; [|intros; split; reflexivity].
        intros pub psk li lh _ Pk. cbn [snd fold_left] in *. apply (PI_light pub psk (nth k ps peer_zero)); [repeat split|exact Pk].
Qed.

Lemma peers_of_app x y : peers_of (x ++ y) = peers_of x ++ peers_of y. Proof. apply flat_map_app. Qed.
Lemma CI_run ops : forall l d tr, no_rekey ops -> CI l d tr -> CI (l ++ peers_of ops) (fst (run C d ops)) (tr ++ snd (run C d ops)).
Proof.
  induction ops as [|(o, r) ops IH]; intros l d tr HO H; cbn [run]; [cbn [fst snd peers_of flat_map]; rewrite !app_nil_r; exact H|]. inversion HO as [|x y H1 H2]; subst.
  pose proof (CI_step l d o r tr H H1) as X. destruct (step C d o r) as [d1 e1]. cbn [fst snd] in X. specialize (IH _ _ _ H2 X). destruct (run C d1 ops) as [d2 e2]. cbn [fst snd] in *.
  change ((o, r) :: ops) with ([(o, r)] ++ ops). rewrite peers_of_app, !app_assoc. exact IH.
Qed.
(** The invariant of every history that begins by setting the key. *)
Theorem CI_all ops r : c_pub C a = Some A -> no_rekey ops ->
  CI (peers_of ops) (fst (run C dev_init ((OKey a, r) :: ops))) (snd (run C dev_init ((OKey a, r) :: ops))).
Proof.
  intros HP NK. cbn [run]. assert (X : CI [] (fst (step C dev_init (OKey a) r)) (snd (step C dev_init (OKey a) r))).
  { unfold step, set_private_key. rewrite HP. cbn [fst snd]. split; [reflexivity|]. split; [constructor; reflexivity|]. intros i Hi.
    destruct (nth_error [] i) as [[? ?]|] eqn:E; [destruct i; discriminate|]. do 8 (destruct i as [|i]; [split; [reflexivity|split; reflexivity]|]). lia. }
  destruct (step C dev_init (OKey a) r) as [d1 e1]. cbn [fst snd] in X. pose proof (CI_run ops [] d1 e1 NK X) as Y. destruct (run C d1 ops) as [d2 e2]. exact Y.
Qed.
End Conf.
