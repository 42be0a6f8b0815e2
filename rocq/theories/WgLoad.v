(** C74: a wolfGuard device under load does no handshake work for senders that
    have not proved their address, spends nothing on senders that do not know its
    public key, and a sender that returns its cookie gets through. *)
From Verif Require Import Base ByteOrder Arp WgAllowedIps WgCounter WgDevice WgDeviceInv WgDeviceRun WgDeviceProps WgToy WgConf WgHandshake WgHello.

(** ** Specification *)

(** A handshake message is an initiation or a response of full length; its two MACs
    are its last 64 bytes of that length. *)
Definition handshake_msg (b : list Z) (off : nat) : Prop :=
  (rdle32 b = 1 /\ 246 <= zlen b /\ off = 182%nat) \/ (rdle32 b = 2 /\ 157 <= zlen b /\ off = 93%nat).
(** The first shows that the sender knows the receiver's public key [A]. *)
Definition mac1_ok (C : crypto) (A b : list Z) (off : nat) : Prop :=
  slice b off 32 = c_hmac C (c_hash C (LABEL_MAC1 ++ A)) (firstn off b).
(** The second shows that it has received at ([ip], [port]) what the receiver, with
    the secret it chose at [birth], tells senders there. *)
Definition cookie_for (C : crypto) (secret : list Z) (ip port : Z) : list Z :=
  c_hmac C secret [ip mod 256; ip / 256 mod 256; ip / 65536 mod 256; ip / 16777216 mod 256; port mod 256; port / 256 mod 256].
Definition mac2_ok (C : crypto) (d : dev) (b : list Z) (off : nat) (ip port : Z) : Prop :=
  x_birth (g_chk (fst d)) <= g_now (fst d) <= x_birth (g_chk (fst d)) + 120000 /\
  slice b (off + 32) 32 = c_hmac C (cookie_for C (x_secret (g_chk (fst d))) ip port) (firstn (off + 32) b).

(** ** Proofs *)
Section Load.
Context (C : crypto).

Lemma cookie_src s ip port : cookie_for C s ip port = c_hmac C s (src_data ip port). Proof. reflexivity. Qed.

(** *** Messages without the right first MAC *)
Lemma mac1_invalid x m off ip port now : slice m off 32 <> c_hmac C (x_mac1key x) (firstn off m) -> cookie_validate C x m off ip port now = MacInvalid.
Proof.
  intros H. unfold cookie_validate. destruct (_ <? _); [reflexivity|]. cbn zeta. destruct (leqb _ (slice m off 32)) eqn:E; [|reflexivity]. apply leqb_eq in E. congruence.
Qed.
Theorem wg_unauthentic_ignored : forall a A ra ops b off ip port r,
  c_pub C a = Some A -> no_rekey ops -> handshake_msg b off -> ~ mac1_ok C A b off ->
  let d := fst (run C dev_init ((OKey a, ra) :: ops)) in
  step C d (ORecv b ip port) r = ((up_rng (fst d) r, snd d), []).
Proof.
  intros a A ra ops b off ip port r HP NK HM N1 d. destruct (CI_all C a A ops ra HP NK) as (_ & G & _). fold d in G.
  unfold step, packet_receive. assert (Z4 : (zlen b <? 4) = false) by (destruct HM; lia). rewrite Z4. cbn zeta.
  assert (MI : cookie_validate C (g_chk (up_rng (fst d) r)) b off ip port (g_now (up_rng (fst d) r)) = MacInvalid).
  { apply mac1_invalid. intros E. apply N1. unfold mac1_ok. rewrite E. cbn. rewrite (gi_mac _ _ _ _ G). reflexivity. }
  destruct HM as [(T & L & ->)|(T & L & ->)]; rewrite T.
  - change (1 =? 1) with true. cbn match. unfold handle_initiation. assert (Z5 : (zlen b <? INIT_LEN) = false) by (unfold INIT_LEN; lia). rewrite Z5. change (Z.to_nat INIT_MAC) with 182%nat. rewrite MI. reflexivity.
  - change (2 =? 1) with false. change (2 =? 2) with true. cbn match. unfold handle_response. assert (Z5 : (zlen b <? RESP_LEN) = false) by (unfold RESP_LEN; lia). rewrite Z5. change (Z.to_nat RESP_MAC) with 93%nat. rewrite MI. reflexivity.
Qed.

(** *** What a call does to the device apart from its peers *)
Definition rotated (g g' : gdev) : Prop :=
  COOKIE_AGE_MS < u64 (g_now g - x_birth (g_chk g)) /\ exists s, g_chk g' = mkChecker s (g_now g) (x_enckey (g_chk g)) (x_mac1key (g_chk g)).
Lemma reply_chk d b off ip port : let g' := fst (fst (send_reply C d b off ip port)) in
  (g_chk g' = g_chk (fst d) \/ rotated (fst d) g') /\ g_load g' = g_load (fst d) /\ g_hpc g' = g_hpc (fst d) /\ g_now g' = g_now (fst d) /\
  (snd (send_reply C d b off ip port) = [] \/ exists nonce box, snd (send_reply C d b off ip port) = [EUdp ip port (le32 3 ++ slice b 4 4 ++ nonce ++ box)] /\
     c_xenc C (x_enckey (g_chk (fst d))) nonce (cookie_for C (x_secret (g_chk g')) ip port) (slice b off 32) = Some box /\ u64 (g_now g' - x_birth (g_chk g')) <= COOKIE_AGE_MS /\ In nonce (g_rng (fst d))).
Proof.
  unfold send_reply, create_reply, rotated. destruct (Z.ltb_spec COOKIE_AGE_MS (u64 (g_now (fst d) - x_birth (g_chk (fst d))))) as [LT|GE].
  - destruct (g_rng (fst d)) as [|b0 r]; cbn [negb]; [repeat split; left; reflexivity|]. cbn [up_chk g_rng up_rng g_chk x_enckey x_secret]. destruct r as [|nc r].
    + cbn. split; [right; split; [exact LT|eexists; reflexivity]|]. repeat split. left. reflexivity.
    + destruct (c_xenc C _ nc _ _) as [box|] eqn:E; cbn; (split; [right; split; [exact LT|eexists; reflexivity]|]; repeat split); [right|left; reflexivity].
      exists nc, box. split; [reflexivity|]. split; [exact E|]. split; [rewrite Z.sub_diag; unfold COOKIE_AGE_MS, u64; cbn; lia|right; left; reflexivity].
  - cbn [negb]. destruct (g_rng (fst d)) as [|nc r]; [repeat split; left; reflexivity|]. destruct (c_xenc C _ nc _ _) as [box|] eqn:E; cbn; repeat split; try (left; reflexivity).
    right. exists nc, box. split; [reflexivity|]. split; [exact E|]. split; [exact GE|left; reflexivity].
Qed.

Definition dev_effect (g : gdev) (o : op) (g' : gdev) : Prop :=
  (g_chk g' = g_chk g \/ (exists b ip port, o = ORecv b ip port) /\ rotated g g' \/ (exists k, o = OKey k) /\ x_birth (g_chk g') = 18446744073709551615 - 120000 - 1) /\
  match o with
  | OPoll t => g_load g' = (8 <=? g_hpc g) /\ g_hpc g' = 0
  | ORecv _ _ _ => g_load g' = g_load g /\ (g_hpc g' = g_hpc g \/ g_hpc g' = u16 (g_hpc g + 1))
  | _ => g_load g' = g_load g /\ g_hpc g' = g_hpc g
  end.
Lemma gsame_effect g g1 o b ip port : o = ORecv b ip port -> gsame g g1 -> dev_effect g o g1.
Proof. intros -> (E1 & E2 & E3 & E4 & E5 & E6 & E7). split; [left; exact E5|]. split; [exact E6|left; exact E7]. Qed.
Lemma step_effect d o r : dev_wf d -> dev_effect (fst d) o (fst (fst (step C d o r))).
Proof.
  intros W. unfold step. set (d0 := (up_rng (fst d) r, snd d)). assert (W0 : dev_wf d0) by exact W. assert (X : forall g', dev_effect (fst d0) o g' -> dev_effect (fst d) o g') by (intros g' H; exact H).
  apply X. clearbody d0. clear X W d. destruct o as [priv|pub psk ip port ka|i ip cidr|pkt|now|b ip port]; cbn [fst].
  - unfold set_private_key. destruct (c_pub C priv) as [pb|]; (split; [|split; reflexivity]); [right; right; split; [eexists; reflexivity|reflexivity]|left; reflexivity].
  - unfold add_peer. destruct (find_free _ 0); (split; [left; reflexivity|split; reflexivity]).
  - unfold add_allowed. destruct (_ || _); [split; [left; reflexivity|split; reflexivity]|]. destruct (negb _); (split; [left; reflexivity|split; reflexivity]).
  - unfold output. destruct (wolfguard_output _ _ pkt) as [i|] eqn:EO; [|split; [left; reflexivity|split; reflexivity]]. apply output_bound in EO.
    destruct (on_peer_ok d0 (Z.to_nat i) (packet_send C i pkt) W0 ltac:(lia) ltac:(rewrite Z2Nat.id by lia; apply packet_send_good)) as (_ & E1 & E2 & E3 & E4 & E5 & E6 & E7).
    destruct (on_peer _ _ _) as [d' e]. cbn [fst] in *. split; [left; exact E5|]. split; assumption.
  - unfold poll. destruct (tick_all_ok C 8 (up_poll (fst d0) (MAX_PEERS <=? g_hpc (fst d0)) now, snd d0) 0 ltac:(destruct W0; split; assumption) ltac:(lia)) as (_ & E1 & E2 & E3 & E4 & E5 & E6 & E7).
    split; [left; exact E5|]. split; [exact E6|exact E7].
  - unfold packet_receive. assert (N : dev_effect (fst d0) (ORecv b ip port) (fst d0)) by (split; [left; reflexivity|split; [reflexivity|left; reflexivity]]).
    assert (H1 : forall g1, gsame (up_hpc (fst d0) (u16 (g_hpc (fst d0) + 1))) g1 -> dev_effect (fst d0) (ORecv b ip port) g1).
    { intros g1 (E1 & E2 & E3 & E4 & E5 & E6 & E7). split; [left; exact E5|]. split; [exact E6|right; exact E7]. }
    assert (HR : forall off, dev_effect (fst d0) (ORecv b ip port) (fst (fst (send_reply C d0 b off ip port)))).
    { intros off. destruct (reply_chk d0 b off ip port) as (E1 & E2 & E3 & _). split; [|split; [exact E2|left; exact E3]]. destruct E1 as [E1|E1]; [left; exact E1|right; left]. split; [eexists _, _, _; reflexivity|exact E1]. }
    destruct (zlen b <? 4); [exact N|]. cbn zeta. destruct d0 as [g ps]. cbn [fst snd] in *.
    destruct (_ =? 1); [|destruct (_ =? 2); [|destruct (_ =? 3); [|destruct (_ =? 4); [|exact N]]]].
    + unfold handle_initiation. destruct (zlen b <? INIT_LEN); [exact N|].
      assert (QQ : forall st, let res := (if g_load g && negb (match st with MacCookie => true | _ => false end)
        then send_reply C (g, ps) b (Z.to_nat INIT_MAC) ip port else let g1 := up_hpc g (u16 (g_hpc g + 1)) in
        match consume_initiation C g1 ps b with None => ((g1, ps), []) | Some (i, p, ts) =>
          let (d', e) := on_peer (g1, lset ps i p) i (answer C (Z.of_nat i) ip port) in (d', EHello (Z.of_nat i) ts (g_now g) :: e) end) in dev_effect g (ORecv b ip port) (fst (fst res))).
      { intros st. cbn zeta. match goal with |- context [if ?x then send_reply _ _ _ _ _ _ else _] => destruct x end; [apply HR|].
        destruct (consume_initiation C _ ps b) as [[[k p] ts]|] eqn:EC; [|apply H1, gsame_refl].
        pose proof (consume_initiation_facts C _ _ _ _ _ _ EC) as (X1 & F1 & F2 & F3 & _). pose proof W0 as (L & _). cbn [snd] in L.
        assert (WP : peer_wf p) by (eapply wf_fields; [apply (nth_wf (g, ps) k W0)|assumption..]).
        destruct (on_peer_ok (up_hpc g (u16 (g_hpc g + 1)), lset ps k p) k (answer C (Z.of_nat k) ip port) (lset_wf g ps k p W0 WP) ltac:(lia) (answer_good C _ ip port)) as (_ & A).
        destruct (on_peer _ _ _) as [d' e]. cbn [fst] in *. apply H1, A. }
      destruct (cookie_validate C (g_chk g) b (Z.to_nat INIT_MAC) ip port (g_now g)); [exact N|exact (QQ MacValid)|exact (QQ MacCookie)].
    + unfold handle_response. destruct (zlen b <? RESP_LEN); [exact N|].
      assert (QQ : forall st, let res := (if g_load g && negb (match st with MacCookie => true | _ => false end)
        then send_reply C (g, ps) b (Z.to_nat RESP_MAC) ip port else let g1 := up_hpc g (u16 (g_hpc g + 1)) in
        match find_wait ps (mr_receiver b) 0 with None => ((g1, ps), []) | Some i => let p := nth i ps peer_zero in
          match consume_response C g1 (p_hs p) b with None => ((g1, ps), []) | Some h1 =>
             on_peer (g1, lset ps i (up_ep (up_hs p h1) ip port)) i (finish C (Z.of_nat i) (first_keepalive C (Z.of_nat i))) end end) in dev_effect g (ORecv b ip port) (fst (fst res))).
      { intros st. cbn zeta. match goal with |- context [if ?x then send_reply _ _ _ _ _ _ else _] => destruct x end; [apply HR|].
        destruct (find_wait ps (mr_receiver b) 0) as [k|] eqn:EF; [|apply H1, gsame_refl]. apply find_wait_bound in EF. pose proof W0 as (L & _). cbn [snd] in L.
        destruct (consume_response C _ (p_hs (nth k ps peer_zero)) b) as [h1|] eqn:EC; [|apply H1, gsame_refl].
        assert (WP : peer_wf (up_ep (up_hs (nth k ps peer_zero) h1) ip port)) by (eapply wf_fields; [apply (nth_wf (g, ps) k W0)|reflexivity..]).
        destruct (on_peer_ok (up_hpc g (u16 (g_hpc g + 1)), lset ps k (up_ep (up_hs (nth k ps peer_zero) h1) ip port)) k (finish C (Z.of_nat k) (first_keepalive C (Z.of_nat k))) (lset_wf g ps k _ W0 WP) ltac:(lia) (finish_good C _ _ (first_keepalive_good C _))) as (_ & A).
        apply H1, A. }
      destruct (cookie_validate C (g_chk g) b (Z.to_nat RESP_MAC) ip port (g_now g)); [exact N|exact (QQ MacValid)|exact (QQ MacCookie)].
    + unfold handle_cookie. destruct (zlen b <? 72); [exact N|]. destruct (find_mac1 _ _ 0); exact N.
    + unfold handle_data. destruct (zlen b <? 32); [exact N|]. cbn zeta. destruct (find_idx ps _ 0) as [[k s]|]; [|exact N].
      destruct (negb _); [exact N|]. destruct (_ <=? _); [exact N|]. destruct (_ <? _); [exact N|]. destruct (c_dec _ _ _ _ _) as [pt|]; [|exact N].
      destruct (wg_counter_validate _ _) as [rx ok]. destruct ok; exact N.
Qed.

(** *** When a device is under load *)
Definition is_poll (o : op) : bool := match o with OPoll _ => true | _ => false end.
Definition is_recv (o : op) : bool := match o with ORecv _ _ _ => true | _ => false end.
Definition count_recv (ops : list (op * list (list Z))) : nat := length (filter (fun o => is_recv (fst o)) ops).
Definition no_poll (ops : list (op * list (list Z))) : Prop := forallb (fun o => negb (is_poll (fst o))) ops = true.

Definition LI (g : gdev) (ops : list (op * list (list Z))) : Prop :=
  (exists x y, ops = x ++ y /\ no_poll y /\ 0 <= g_hpc g <= Z.of_nat (count_recv y)) /\
  (g_load g = true -> exists x y t r z, ops = x ++ y ++ (OPoll t, r) :: z /\ no_poll y /\ no_poll z /\ (8 <= count_recv y)%nat).
Lemma np_snoc y o r : no_poll y -> is_poll o = false -> no_poll (y ++ [(o, r)]).
Proof. intros H E. unfold no_poll. rewrite forallb_app, H. cbn. rewrite E. reflexivity. Qed.
Lemma cr_snoc y o r : count_recv (y ++ [(o, r)]) = (count_recv y + (if is_recv o then 1 else 0))%nat.
Proof. unfold count_recv. rewrite filter_app, app_length. cbn. destruct (is_recv o); reflexivity. Qed.
Lemma LI_step g o r g' ops : LI g ops -> dev_effect g o g' -> LI g' (ops ++ [(o, r)]).
Proof.
  intros ((x & y & E & NP & HB) & HL) (_ & EF). destruct (is_poll o) eqn:EP.
  - destruct o; try discriminate. destruct EF as (E1 & E2). split.
    + exists (ops ++ [(OPoll now, r)]), []. rewrite app_nil_r. split; [reflexivity|]. split; [reflexivity|]. rewrite E2. cbn. lia.
    + rewrite E1. intros L8. exists x, y, now, r, []. split; [rewrite E, <- app_assoc; reflexivity|]. split; [exact NP|]. split; [reflexivity|]. lia.
  - assert (EL : g_load g' = g_load g /\ 0 <= g_hpc g' <= g_hpc g + (if is_recv o then 1 else 0)).
    { destruct o; try discriminate; cbn [is_recv]; destruct EF as (E1 & E2); (split; [exact E1|]); try (rewrite E2; lia). destruct E2 as [->| ->]; [lia|]. unfold u16. pose proof (Z.mod_pos_bound (g_hpc g + 1) 65536 ltac:(lia)).
      pose proof (Z.mod_le (g_hpc g + 1) 65536 ltac:(lia) ltac:(lia)). lia. }
    destruct EL as (EL & EH). split.
    + exists x, (y ++ [(o, r)]). split; [rewrite E, <- app_assoc; reflexivity|]. split; [apply np_snoc; assumption|]. rewrite cr_snoc. destruct (is_recv o); lia.
    + rewrite EL. intros L. destruct (HL L) as (x1 & y1 & t1 & r1 & z1 & X1 & X2 & X3 & X4). exists x1, y1, t1, r1, (z1 ++ [(o, r)]). split; [rewrite X1, <- !app_assoc; reflexivity|]. split; [exact X2|].
      split; [apply np_snoc; assumption|exact X4].
Qed.
Lemma LI_run l : forall d ops, dev_wf d -> hist_ok (g_now (fst d)) l -> LI (fst d) ops -> LI (fst (fst (run C d l))) (ops ++ l).
Proof.
  induction l as [|(o, r) l IH]; intros d ops W HO H; cbn [run]; [rewrite app_nil_r; exact H|]. destruct HO as (H1 & H2).
  pose proof (LI_step _ o r _ _ H (step_effect d o r W)) as X. destruct (step_ok C d o r W H1) as ((W1 & _) & E). destruct (step C d o r) as [d1 e1]. cbn [fst snd] in *. rewrite <- E in H2.
  specialize (IH d1 _ W1 H2 X). destruct (run C d1 l) as [d2 e2]. cbn [fst snd] in *. rewrite <- app_assoc in IH. exact IH.
Qed.

(** C74.  A device is under load only if at least eight datagrams arrived between its
    last two polls. *)
Theorem wg_load_needs_eight : forall ops, hist_ok 0 ops -> g_load (fst (fst (run C dev_init ops))) = true ->
  exists x y t r z, ops = x ++ y ++ (OPoll t, r) :: z /\ no_poll y /\ no_poll z /\ (8 <= count_recv y)%nat.
Proof.
  intros ops HO. apply (LI_run ops dev_init [] dev_init_wf HO). split; [exists [], []; split; [reflexivity|]; split; [reflexivity|cbn; lia]|discriminate].
Qed.

(** *** Messages without the right second MAC, under load *)
Definition XI (d : dev) : Prop := x_birth (g_chk (fst d)) = 18446744073709551615 - 120000 - 1 \/ 0 <= x_birth (g_chk (fst d)) <= g_now (fst d).
Lemma XI_run l : forall d, dev_wf d -> hist_ok (g_now (fst d)) l -> 0 <= g_now (fst d) -> XI d -> XI (fst (run C d l)).
Proof.
  induction l as [|(o, r) l IH]; intros d W HO HN H; cbn [run]; [exact H|]. destruct HO as (H1 & H2).
  pose proof (step_effect d o r W) as (X & _). destruct (step_ok C d o r W H1) as ((W1 & _) & E). destruct (step C d o r) as [d1 e1]. cbn [fst snd] in *.
  assert (LN : g_now (fst d) <= g_now (fst d1)) by (rewrite E; destruct o; cbn [op_ok op_now] in *; lia). rewrite <- E in H2.
  assert (X1 : XI d1).
  { unfold XI in *. destruct X as [->|[((b & ip & port & ->) & _ & s & ->)|(_ & ->)]]; [destruct H as [->|H]; [left; reflexivity|right; lia]| |left; reflexivity]. right. cbn [x_birth op_now] in *. lia. }
  specialize (IH d1 W1 H2 ltac:(lia) X1). destruct (run C d1 l) as [d2 e2]. exact IH.
Qed.
Lemma mac2_invalid d b off ip port : XI d -> 0 <= g_now (fst d) < 2 ^ 63 -> ~ mac2_ok C d b off ip port ->
  cookie_validate C (g_chk (fst d)) b off ip port (g_now (fst d)) <> MacCookie.
Proof.
  intros X T H. unfold cookie_validate. destruct (_ <? _); [discriminate|]. cbn zeta. destruct (negb _); [discriminate|]. destruct (leqb _ (zbytes 32)); [discriminate|].
  destruct (_ <? u64 _) eqn:EA; [discriminate|]. destruct (leqb _ _) eqn:E; [|discriminate]. apply leqb_eq in E. exfalso. apply H. split; [|exact (eq_sym E)].
  unfold COOKIE_AGE_MS, u64 in EA. destruct X as [X|X].
  - rewrite X in EA. replace (g_now (fst d) - (18446744073709551615 - 120000 - 1)) with (g_now (fst d) + 120002 + (-1) * 18446744073709551616) in EA by lia.
    rewrite Z_mod_plus_full, Z.mod_small in EA by lia. lia.
  - rewrite Z.mod_small in EA by lia. lia.
Qed.

(** C74, second part.  Under load a handshake message without a valid cookie changes
    no peer and causes no key exchange; at most it is answered, to where it came from,
    by the cookie for that address, sealed for a sender that knows the device's public
    key and the message. *)
Theorem wg_load_only_cookies : forall a A ra ops b off ip port r,
  c_pub C a = Some A -> no_rekey ops -> hist_ok 0 ((OKey a, ra) :: ops) ->
  let d := fst (run C dev_init ((OKey a, ra) :: ops)) in
  g_now (fst d) < 2 ^ 63 -> g_load (fst d) = true -> handshake_msg b off -> ~ mac2_ok C d b off ip port ->
  let '(d', e) := step C d (ORecv b ip port) r in
  snd d' = snd d /\
  (e = [] \/ exists nonce box, e = [EUdp ip port (le32 3 ++ slice b 4 4 ++ nonce ++ box)] /\ In nonce r /\
     c_xenc C (c_hash C (LABEL_COOKIE ++ A)) nonce (cookie_for C (x_secret (g_chk (fst d'))) ip port) (slice b off 32) = Some box).
Proof.
  intros a A ra ops b off ip port r HP NK HO d HN HL HM N2. destruct (CI_all C a A ops ra HP NK) as (_ & G & _). fold d in G.
  assert (T : 0 <= g_now (fst d) /\ XI d).
  { split; [|apply (XI_run _ dev_init dev_init_wf HO); [cbn; lia|right; cbn; lia]].
    pose proof (HJ_all C _ HO) as _. assert (Y : forall l d0, dev_wf d0 -> hist_ok (g_now (fst d0)) l -> 0 <= g_now (fst d0) -> 0 <= g_now (fst (fst (run C d0 l)))).
    { clear. induction l as [|(o, r) l IH]; intros d W HO HN; cbn [run]; [exact HN|]. destruct HO as (H1 & H2). destruct (step_ok C d o r W H1) as ((W1 & _) & E). destruct (step C d o r) as [d1 e1]. cbn [fst snd] in *. rewrite <- E in H2.
      specialize (IH d1 W1 H2 ltac:(rewrite E; destruct o; cbn [op_ok op_now] in *; lia)). destruct (run C d1 l) as [d2 e2]. exact IH. }
    apply Y; [exact dev_init_wf|exact HO|cbn; lia]. }
  destruct T as (T1 & T2). set (d0 := (up_rng (fst d) r, snd d)).
  assert (CV : cookie_validate C (g_chk (fst d0)) b off ip port (g_now (fst d0)) <> MacCookie) by (apply (mac2_invalid d); [exact T2|lia|exact N2]).
  assert (RP : forall off, let '(d', e) := send_reply C d0 b off ip port in snd d' = snd d /\ (e = [] \/ exists nonce box, e = [EUdp ip port (le32 3 ++ slice b 4 4 ++ nonce ++ box)] /\ In nonce r /\
     c_xenc C (c_hash C (LABEL_COOKIE ++ A)) nonce (cookie_for C (x_secret (g_chk (fst d'))) ip port) (slice b off 32) = Some box)).
  { intros o. destruct (reply_chk d0 b o ip port) as (_ & _ & _ & _ & R). destruct (send_reply_facts C d0 b o ip port) as (R1 & _). destruct (send_reply C d0 b o ip port) as [d' e]. cbn [fst snd] in *.
    split; [exact R1|]. destruct R as [R|(nc & box & R2 & R3 & _ & R4)]; [left; exact R|right]. exists nc, box. split; [exact R2|]. split; [exact R4|]. cbn in R3. rewrite (gi_enc _ _ _ _ G) in R3. exact R3. }
  unfold step. fold d0. unfold packet_receive. assert (Z4 : (zlen b <? 4) = false) by (destruct HM; lia). rewrite Z4. cbn zeta.
  assert (HL0 : g_load (fst d0) = true) by exact HL. assert (ES : snd d0 = snd d) by reflexivity. clearbody d0. destruct d0 as [g ps]. cbn [fst snd] in *.
  destruct HM as [(T & L & ->)|(T & L & ->)]; rewrite T.
  - change (1 =? 1) with true. cbn match. unfold handle_initiation. assert (Z5 : (zlen b <? INIT_LEN) = false) by (unfold INIT_LEN; lia). rewrite Z5. change (Z.to_nat INIT_MAC) with 182%nat. rewrite HL0. cbn [andb].
    destruct (cookie_validate C (g_chk g) b 182 ip port (g_now g)); [split; [exact ES|left; reflexivity]| |congruence]. cbn [negb]. apply RP.
  - change (2 =? 1) with false. change (2 =? 2) with true. cbn match. unfold handle_response. assert (Z5 : (zlen b <? RESP_LEN) = false) by (unfold RESP_LEN; lia). rewrite Z5. change (Z.to_nat RESP_MAC) with 93%nat. rewrite HL0. cbn [andb].
    destruct (cookie_validate C (g_chk g) b 93 ip port (g_now g)); [split; [exact ES|left; reflexivity]| |congruence]. cbn [negb]. apply RP.
Qed.
End Load.
Print Assumptions wg_unauthentic_ignored.
Print Assumptions wg_load_needs_eight.
Print Assumptions wg_load_only_cookies.

(** ** The hypotheses are met *)
(** Eight initiations that know B's key but nobody's secrets put B under load. *)
Definition fakeInit : list Z := let body := le32 1 ++ zbytes 178 in body ++ c_hmac toy (c_hash toy (LABEL_MAC1 ++ pubB)) body ++ zbytes 32.
Definition opsBL : list (op * list (list Z)) := tl setupB ++ repeat (ORecv fakeInit ipA 1234, []) 8 ++ [(OPoll 1000, [])].
Definition dBL := fst (run toy dev_init ((OKey keyB, []) :: opsBL)).
Lemma opsBL_ok : c_pub toy keyB = Some pubB /\ no_rekey opsBL /\ hist_ok 0 ((OKey keyB, []) :: opsBL).
Proof. split; [reflexivity|]. split; [unfold opsBL; cbn [tl setupB app repeat]; repeat constructor|]. apply hist_okb_ok. vm_compute. reflexivity. Qed.
Lemma mInit_nocookie : ~ mac2_ok toy dBL mInit 182 ipA 5555.
Proof. intros (_ & E). revert E. vm_compute. discriminate. Qed.
Example load_toy : hist_ok 0 ((OKey keyB, []) :: opsBL) /\ g_load (fst dBL) = true.
Proof. split; [apply opsBL_ok|vm_compute; reflexivity]. Qed.
Example load_reply_toy :
  c_pub toy keyB = Some pubB /\ no_rekey opsBL /\ hist_ok 0 ((OKey keyB, []) :: opsBL) /\ g_now (fst dBL) < 2 ^ 63 /\ g_load (fst dBL) = true /\
  handshake_msg mInit 182 /\ ~ mac2_ok toy dBL mInit 182 ipA 5555 /\
  exists c, snd (step toy dBL (ORecv mInit ipA 5555) [repeat 71 32; repeat 72 16]) = [EUdp ipA 5555 c] /\ zlen c = 72.
Proof.
  destruct opsBL_ok as (H1 & H2 & H3). split; [exact H1|]. split; [exact H2|]. split; [exact H3|]. split; [vm_compute; reflexivity|]. split; [vm_compute; reflexivity|].
  split; [left; split; [vm_compute; reflexivity|split; [vm_compute; discriminate|reflexivity]]|]. split; [exact mInit_nocookie|]. eexists. split; vm_compute; reflexivity.
Qed.
Example unauthentic_toy : c_pub toy keyB = Some pubB /\ no_rekey opsBL /\ handshake_msg (le32 1 ++ zbytes 242) 182 /\ ~ mac1_ok toy pubB (le32 1 ++ zbytes 242) 182.
Proof.
  destruct opsBL_ok as (H1 & H2 & _). split; [exact H1|]. split; [exact H2|]. split; [left; split; [vm_compute; reflexivity|split; [vm_compute; discriminate|reflexivity]]|].
  unfold mac1_ok. vm_compute. discriminate.
Qed.
