(** C72: two wolfGuard devices that run the handshake agree on the keys, and the
    packets that waited for it arrive. *)
From Verif Require Import Base ByteOrder Arp WgAllowedIps WgCounter WgDevice WgDeviceInv WgDeviceRun WgDeviceProps WgToy WgConf.

Lemma slice_mid (x y z : list Z) o n : length x = o -> length y = n -> slice (x ++ y ++ z) o n = y.
Proof.
  intros <- <-. unfold slice. rewrite skipn_app, Nat.sub_diag, skipn_all. cbn [app skipn]. rewrite firstn_app, Nat.sub_diag, firstn_all, firstn_O. apply app_nil_r.
Qed.
Lemma rdle32_le32 v t : 0 <= v < 4294967296 -> rdle32 (le32 v ++ t) = v.
Proof.
  intros H. unfold rdle32, load_le32, le32. cbn [app]. unfold zget.
  change (Z.to_nat 0) with 0%nat. change (Z.to_nat 1) with 1%nat. change (Z.to_nat 2) with 2%nat. change (Z.to_nat 3) with 3%nat. cbn [nth]. unfold u8.
  replace (v / 65536) with (v / 256 / 256) by (rewrite Z.div_div by lia; reflexivity).
  replace (v / 16777216) with (v / 256 / 256 / 256) by (rewrite !Z.div_div by lia; reflexivity).
  pose proof (Z.div_mod v 256 ltac:(lia)). pose proof (Z.div_mod (v / 256) 256 ltac:(lia)). pose proof (Z.div_mod (v / 256 / 256) 256 ltac:(lia)).
  assert (0 <= v / 256 / 256 / 256 < 256). { rewrite !Z.div_div by lia. split; [apply Z.div_pos; lia|apply Z.div_lt_upper_bound; lia]. }
  rewrite (Z.mod_small (v / 256 / 256 / 256)) by assumption. lia.
Qed.
Lemma rdle32_le32' v : 0 <= v < 4294967296 -> rdle32 (le32 v) = v.
Proof. intros H. rewrite <- (app_nil_r (le32 v)). apply rdle32_le32, H. Qed.
Lemma length_zlen {X} (l : list X) n : zlen l = Z.of_nat n -> length l = n.
Proof. unfold zlen. lia. Qed.
Lemma timestamp_len t : length (timestamp t) = 12%nat. Proof. reflexivity. Qed.
Lemma new_index_range g g1 v : new_index g = (g1, v) -> 0 <= v < 4294967296.
Proof.
  unfold new_index. assert (H : forall l, 0 <= snd (new_index_l l) < 4294967296).
  { induction l as [|b l IH]; cbn [new_index_l]; [cbn; lia|]. destruct (_ =? 0); [exact IH|]. cbn [snd]. unfold u32. apply Z.mod_pos_bound. lia. }
  specialize (H (g_rng g)). destruct (new_index_l _). intros [= _ <-]. exact H.
Qed.

Section Handshake.
Context (C : crypto) (OK : crypto_ok C).

(** The bytes of an initiation and what its creation leaves behind. *)
Lemma initiation_spec g h g1 h1 body : create_initiation C g h = (g1, h1, Some body) -> zlen (g_pub g) = 65 ->
  exists epub dh ck2 key es ck3 key2 et,
    c_pub C (h_eph h1) = Some epub /\ c_dh C (h_eph h1) (h_rstatic h) = Some dh /\
    kdf2 C (kdf1 C (c_hash C CONSTRUCTION) epub) dh = (ck2, key) /\
    let h2 := mix C (mix C (c_hash C (c_hash C CONSTRUCTION ++ IDENTIFIER)) (h_rstatic h)) epub in
    c_dec C key 0 es h2 = Some (g_pub g) /\ kdf2 C ck2 (h_ss h) = (ck3, key2) /\ c_dec C key2 0 et (mix C h2 es) = Some (timestamp (g_now g)) /\
    h_ck h1 = ck3 /\ h_hash h1 = mix C (mix C h2 es) et /\ h_state h1 = CreatedInit /\ 0 < h_lidx h1 < 4294967296 /\
    h_rstatic h1 = h_rstatic h /\ h_ss h1 = h_ss h /\ h_psk h1 = h_psk h /\
    body = le32 1 ++ le32 (h_lidx h1) ++ epub ++ es ++ et /\ length epub = 65%nat /\ length es = 81%nat /\ length et = 28%nat.
Proof.
  unfold create_initiation, dh_generate. intros E LP. destruct (g_rng g) as [|ep r]; [discriminate|]. destruct (c_pub C ep) as [epub|] eqn:EP; [|discriminate].
  destruct (c_dh C ep (h_rstatic h)) as [dh|] eqn:ED; [|discriminate]. destruct (kdf2 C _ dh) as [ck2 key] eqn:EK.
  destruct (co_enc C OK key 0 (g_pub g) (mix C (mix C (c_hash C (c_hash C CONSTRUCTION ++ IDENTIFIER)) (h_rstatic h)) epub)) as (es & E1 & E2 & E3). rewrite E1 in E.
  destruct (kdf2 C ck2 (h_ss h)) as [ck3 key2] eqn:EK2.
  destruct (co_enc C OK key2 0 (timestamp (g_now g)) (mix C (mix C (mix C (c_hash C (c_hash C CONSTRUCTION ++ IDENTIFIER)) (h_rstatic h)) epub) es)) as (et & F1 & F2 & F3). rewrite F1 in E.
  destruct (new_index _) as [gb idx] eqn:EN. apply new_index_range in EN. destruct (Z.eqb_spec idx 0) as [Z0|NZ]; [discriminate|]. injection E as <- <- <-.
  exists epub, dh, ck2, key, es, ck3, key2, et. cbn [hs_st hs_idx hs_ch hs_eph h_eph h_ck h_hash h_state h_lidx h_rstatic h_ss h_psk].
  pose proof (co_pub C OK _ _ EP). repeat (split; [assumption|]). split; [reflexivity|]. split; [reflexivity|]. split; [reflexivity|]. split; [lia|]. repeat (split; [reflexivity|]).
  split; [apply length_zlen; lia|]. split; [apply length_zlen; lia|apply length_zlen; rewrite F2; unfold zlen; rewrite timestamp_len; reflexivity].
Qed.

(** The fields a receiver reads. *)
Lemma init_fields idx epub es et rest : 0 <= idx < 4294967296 -> length epub = 65%nat -> length es = 81%nat -> length et = 28%nat ->
  let b := (le32 1 ++ le32 idx ++ epub ++ es ++ et) ++ rest in
  rdle32 b = 1 /\ mi_sender b = idx /\ mi_eph b = epub /\ mi_static b = es /\ mi_ts b = et /\ length (le32 1 ++ le32 idx ++ epub ++ es ++ et) = 182%nat.
Proof.
  intros HI L1 L2 L3 b. assert (EB : b = le32 1 ++ le32 idx ++ epub ++ es ++ et ++ rest) by (unfold b; rewrite <- !app_assoc; reflexivity).
  rewrite EB. split; [apply rdle32_le32; lia|].
  split; [unfold mi_sender; rewrite (slice_mid (le32 1) (le32 idx)); [apply rdle32_le32', HI|reflexivity|reflexivity]|].
  split; [unfold mi_eph; rewrite (app_assoc (le32 1)); apply slice_mid; [reflexivity|exact L1]|].
  split; [unfold mi_static; rewrite 2 (app_assoc); apply slice_mid; [rewrite !app_length, L1; reflexivity|exact L2]|].
  split; [unfold mi_ts; rewrite 3 app_assoc; apply slice_mid; [rewrite !app_length, L1, L2; reflexivity|exact L3]|].
  rewrite !app_length, L1, L2, L3. reflexivity.
Qed.

Lemma mac_ok x body mac2 now ip port off : length body = off -> length mac2 = 32%nat ->
  cookie_validate C x (body ++ c_hmac C (x_mac1key x) body ++ mac2) off ip port now <> MacInvalid.
Proof.
  intros L1 L2. unfold cookie_validate. pose proof (co_mac C OK (x_mac1key x) body) as LM.
  assert (LZ : zlen (body ++ c_hmac C (x_mac1key x) body ++ mac2) = Z.of_nat off + 64) by (unfold zlen in *; rewrite !app_length; lia). rewrite LZ, Z.ltb_irrefl. cbn zeta.
  assert (E1 : slice (body ++ c_hmac C (x_mac1key x) body ++ mac2) off 32 = c_hmac C (x_mac1key x) body) by (apply slice_mid; [exact L1|unfold zlen in LM; lia]). rewrite E1.
  assert (E2 : firstn off (body ++ c_hmac C (x_mac1key x) body ++ mac2) = body) by (rewrite firstn_app, L1, Nat.sub_diag, firstn_O, app_nil_r; apply firstn_all2; lia).
  rewrite E2, leqb_refl. cbn [negb]. destruct (leqb _ (zbytes 32)); [discriminate|]. destruct (_ <? _); [discriminate|]. destruct (leqb _ _); discriminate.
Qed.

Lemma mac2_len mac2 : mac2 = zbytes 32 \/ (exists k m, mac2 = c_hmac C k m) -> length mac2 = 32%nat.
Proof. intros [->|(k & m & ->)]; [reflexivity|]. apply length_zlen, (co_mac C OK). Qed.

(** The responder accepts what the initiator sent, and shares its chaining key. *)
Lemma initiation_accepted a A b B g ps h t m j :
  c_pub C a = Some A -> c_pub C b = Some B ->
  sent_init C A (c_hash C (LABEL_MAC1 ++ B)) h t m -> h_rstatic h = B -> c_dh C a B = Some (h_ss h) ->
  g_priv g = b -> g_pub g = B -> find_pub ps A 0 = Some j -> h_ss (p_hs (nth j ps peer_zero)) = h_ss h ->
  (0 < p_lastinit (nth j ps peer_zero) -> REKEY_TIMEOUT_MS <= u64 (g_now g - p_lastinit (nth j ps peer_zero))) ->
  lexgt (timestamp t) (p_ts (nth j ps peer_zero)) = true ->
  exists h', consume_initiation C g ps m = Some (j, up_hello (up_hs (nth j ps peer_zero) h') (timestamp t) (g_now g), timestamp t) /\
    h_ck h' = h_ck h /\ h_hash h' = h_hash h /\ c_pub C (h_eph h) = Some (h_reph h') /\ h_ridx h' = h_lidx h /\ h_state h' = ConsumedInit /\
    h_rstatic h' = h_rstatic (p_hs (nth j ps peer_zero)) /\ h_psk h' = h_psk (p_hs (nth j ps peer_zero)) /\
    mi_sender m = h_lidx h /\ 0 < h_lidx h < 4294967296 /\ rdle32 m = 1 /\ zlen m = 246 /\ h_state h = CreatedInit /\
    (forall x ip port now, x_mac1key x = c_hash C (LABEL_MAC1 ++ B) -> cookie_validate C x m 182 ip port now <> MacInvalid).
Proof.
  intros HA HB (g0 & h0 & g1 & body & mac2 & S1 & S2 & S3 & S4 & S5) HR HSS GP GB FP HS RL LX. apply mac2_len in S5.
  destruct (initiation_spec _ _ _ _ _ S3) as (epub & dh & ck2 & key & es & ck3 & key2 & et & I1 & I2 & I3 & I4 & I5 & I6 & I7 & I8 & I9 & I10 & I11 & I12 & I13 & I14 & I15 & I16 & I17).
  { rewrite S1. apply (co_pub C OK _ _ HA). }
  rewrite I11 in HR. rewrite HR in *.
  destruct (init_fields (h_lidx h) epub es et (c_hmac C (c_hash C (LABEL_MAC1 ++ B)) body ++ mac2) ltac:(lia) I15 I16 I17) as (F1 & F2 & F3 & F4 & F5 & F6).
  rewrite <- I14, <- S4 in F1, F2, F3, F4, F5. rewrite <- I14 in F6.
  destruct (co_dh C OK _ _ _ _ I1 HB) as (s & D1 & D2). assert (s = dh) as -> by congruence.
  unfold consume_initiation. rewrite F3, F4, F5, F2, GP, GB, D2, I3, I4, S1, FP. cbn zeta.
  assert (ER : (0 <? p_lastinit (nth j ps peer_zero)) && (u64 (g_now g - p_lastinit (nth j ps peer_zero)) <? REKEY_TIMEOUT_MS) = false).
  { apply andb_false_iff. destruct (Z.ltb_spec 0 (p_lastinit (nth j ps peer_zero))); [right|left; reflexivity]. specialize (RL H). lia. }
  rewrite ER, HS, I12, I5, I6, S2, LX. cbn [negb].
  eexists. split; [reflexivity|]. cbn [hs_st hs_idx hs_reph hs_ch h_ck h_hash h_reph h_ridx h_state h_rstatic h_psk]. split; [congruence|]. split; [congruence|]. split; [exact I1|].
  split; [reflexivity|]. split; [reflexivity|]. split; [reflexivity|]. split; [reflexivity|]. split; [reflexivity|]. split; [exact I10|]. split; [exact F1|].
  split; [rewrite S4; unfold zlen; rewrite !app_length, F6, S5; pose proof (co_mac C OK (c_hash C (LABEL_MAC1 ++ B)) body); unfold zlen in *; lia|]. split; [exact I9|].
  intros x ip port now EX. rewrite S4, <- EX. apply mac_ok; assumption.
Qed.

(** The response: bytes, and the initiator's reading of them. *)
Lemma resp_fields idx ridx epub ee rest : 0 <= idx < 4294967296 -> 0 <= ridx < 4294967296 -> length epub = 65%nat -> length ee = 16%nat ->
  let b := (le32 2 ++ le32 idx ++ le32 ridx ++ epub ++ ee) ++ rest in
  rdle32 b = 2 /\ mr_sender b = idx /\ mr_receiver b = ridx /\ mr_eph b = epub /\ mr_empty b = ee /\ length (le32 2 ++ le32 idx ++ le32 ridx ++ epub ++ ee) = 93%nat.
Proof.
  intros HI HR L1 L2 b. assert (EB : b = le32 2 ++ le32 idx ++ le32 ridx ++ epub ++ ee ++ rest) by (unfold b; rewrite <- !app_assoc; reflexivity).
  rewrite EB. split; [apply rdle32_le32; lia|].
  split; [unfold mr_sender; rewrite (slice_mid (le32 2) (le32 idx)); [apply rdle32_le32', HI|reflexivity|reflexivity]|].
  split; [unfold mr_receiver; rewrite (app_assoc (le32 2)), slice_mid; [apply rdle32_le32', HR|reflexivity|reflexivity]|].
  split; [unfold mr_eph; rewrite 2 (app_assoc); apply slice_mid; [reflexivity|exact L1]|].
  split; [unfold mr_empty; rewrite 3 app_assoc; apply slice_mid; [rewrite !app_length, L1; reflexivity|exact L2]|].
  rewrite !app_length, L1, L2. reflexivity.
Qed.

Lemma response_accepted a A b B gB h' hA gA e x r E mk mac2 :
  c_pub C a = Some A -> c_pub C b = Some B -> g_rng gB = e :: x :: r -> c_pub C e = Some E -> u32 (rdle32 x) <> 0 ->
  h_state h' = ConsumedInit -> h_state hA = CreatedInit -> h_ck h' = h_ck hA -> h_hash h' = h_hash hA -> c_pub C (h_eph hA) = Some (h_reph h') ->
  h_ridx h' = h_lidx hA -> h_rstatic h' = A -> h_psk h' = h_psk hA -> g_priv gA = a -> 0 <= h_lidx hA < 4294967296 -> length mac2 = 32%nat ->
  exists g1 hB body, create_response C gB h' = (g1, hB, Some body) /\ length body = 93%nat /\
    let m := body ++ c_hmac C mk body ++ mac2 in
    rdle32 m = 2 /\ zlen m = 157 /\ mr_receiver m = h_lidx hA /\ h_state hB = CreatedResp /\ h_rstatic hB = A /\ h_ridx hB = h_lidx hA /\ h_lidx hB = u32 (rdle32 x) /\
    exists h1, consume_response C gA hA m = Some h1 /\ h_ck h1 = h_ck hB /\ h_state h1 = ConsumedResp /\ h_lidx h1 = h_lidx hA /\ h_ridx h1 = h_lidx hB.
Proof.
  intros HA HB RN HE HX S1 S2 K1 K2 K3 K4 K5 K6 GA RI LM. unfold create_response. rewrite S1. cbn [hs_eqb negb]. unfold dh_generate. rewrite RN, HE.
  destruct (co_dh C OK _ _ _ _ HE K3) as (dh1 & D1 & D2). rewrite D1. rewrite K5. destruct (co_dh C OK _ _ _ _ HE HA) as (dh2 & D3 & D4). rewrite D3.
  destruct (kdf3 C (kdf1 C (kdf1 C (kdf1 C (h_ck h') E) dh1) dh2) (h_psk h')) as [[ck4 tau] key] eqn:EK.
  destruct (co_enc C OK key 0 [] (mix C (mix C (h_hash h') E) tau)) as (ee & E1 & E2 & E3). rewrite E1.
  unfold new_index. cbn [up_rng g_rng new_index_l]. destruct (Z.eqb_spec (u32 (rdle32 x)) 0) as [|NX]; [contradiction|].
  destruct (Z.eqb_spec (u32 (rdle32 x)) 0) as [|_]; [contradiction|].
  assert (RX : 0 <= u32 (rdle32 x) < 4294967296) by (apply Z.mod_pos_bound; lia).
  pose proof (co_pub C OK _ _ HE) as LE. apply (length_zlen E 65%nat) in LE. assert (LEE : length ee = 16%nat) by (apply length_zlen; rewrite E2; reflexivity).
  destruct (resp_fields (u32 (rdle32 x)) (h_ridx h') E ee (c_hmac C mk (le32 2 ++ le32 (u32 (rdle32 x)) ++ le32 (h_ridx h') ++ E ++ ee) ++ mac2) RX ltac:(rewrite K4; exact RI) LE LEE) as (F1 & F2 & F3 & F4 & F5 & F6).
  eexists _, _, _. split; [reflexivity|]. split; [exact F6|]. cbv zeta. set (body := le32 2 ++ _) in *. set (m := body ++ _) in *. split; [exact F1|].
  split; [unfold m, zlen; rewrite !app_length, F6, LM; pose proof (co_mac C OK mk body) as X; unfold zlen in X; lia|]. split; [rewrite F3; exact K4|]. split; [reflexivity|]. split; [exact K5|]. split; [exact K4|]. split; [reflexivity|].
  unfold consume_response. rewrite S2. cbn [hs_eqb negb]. rewrite F4, D2, GA, D4. rewrite <- K1, <- K6, <- K2, EK, F5, E3, F2. eexists. split; [reflexivity|]. repeat split.
Qed.

(** Peer numbers found by their keys. *)
Lemma find_pub_first ps pub : forall i j, (j < length ps)%nat -> p_active (nth j ps peer_zero) = true -> p_pub (nth j ps peer_zero) = pub ->
  (forall k, (k < j)%nat -> p_active (nth k ps peer_zero) = true -> p_pub (nth k ps peer_zero) <> pub) -> find_pub ps pub i = Some (i + j)%nat.
Proof.
  induction ps as [|p ps IH]; intros i j L H1 H2 H3; [cbn in L; lia|]. cbn [find_pub]. destruct j as [|j].
  - cbn [nth] in H1, H2. rewrite H1, H2, leqb_refl. cbn [andb]. f_equal. lia.
  - assert (E : p_active p && leqb (p_pub p) pub = false).
    { apply andb_false_iff. destruct (p_active p) eqn:EA; [right|left; reflexivity]. destruct (leqb (p_pub p) pub) eqn:EL; [|reflexivity]. apply leqb_eq in EL. exfalso. exact (H3 0%nat ltac:(lia) EA EL). }
    rewrite E, (IH (S i) j); [f_equal; lia|cbn in L; lia|exact H1|exact H2|]. intros k Hk. apply (H3 (S k)). lia.
Qed.

(** Peer [k] of a device waits for the response to an initiation with index [x]. *)
Definition waits (d : dev) (k : nat) (x : Z) : Prop :=
  let p := nth k (snd d) peer_zero in p_active p = true /\ h_state (p_hs p) = CreatedInit /\ h_lidx (p_hs p) = x.
Lemma find_wait_first ps x : forall i j, (j < length ps)%nat -> p_active (nth j ps peer_zero) = true -> h_state (p_hs (nth j ps peer_zero)) = CreatedInit -> h_lidx (p_hs (nth j ps peer_zero)) = x ->
  (forall k, (k < j)%nat -> ~ (p_active (nth k ps peer_zero) = true /\ h_state (p_hs (nth k ps peer_zero)) = CreatedInit /\ h_lidx (p_hs (nth k ps peer_zero)) = x)) -> find_wait ps x i = Some (i + j)%nat.
Proof.
  induction ps as [|p ps IH]; intros i j L H1 H2 H3 H4; [cbn in L; lia|]. cbn [find_wait]. destruct j as [|j].
  - cbn [nth] in H1, H2, H3. rewrite H1, H2, H3, Z.eqb_refl. cbn. f_equal. lia.
  - assert (E : p_active p && hs_eqb (h_state (p_hs p)) CreatedInit && (h_lidx (p_hs p) =? x) = false).
    { destruct (p_active p && hs_eqb (h_state (p_hs p)) CreatedInit && (h_lidx (p_hs p) =? x)) eqn:E; [|reflexivity]. exfalso. apply (H4 0%nat (Nat.lt_0_succ j)). cbn [nth].
      apply andb_true_iff in E. destruct E as (E & E3). apply andb_true_iff in E. destruct E as (E1 & E2). split; [exact E1|]. split; [destruct (h_state (p_hs p)); cbn in E2; congruence|apply Z.eqb_eq, E3]. }
    rewrite E, (IH (S i) j); [f_equal; lia|cbn in L; lia|exact H1|exact H2|exact H3|]. intros k Hk. apply (H4 (S k)). lia.
Qed.

(** The session keys the two ends derive from a chaining key. *)
Lemma begin_session_resp i g p : h_state (p_hs p) = CreatedResp -> exists p1, begin_session C i g p =
  Some (p1, [ENew i (snd (kdf2 C (h_ck (p_hs p)) [])) (fst (kdf2 C (h_ck (p_hs p)) [])) (g_now g)]) /\
  p_kps p1 = (let k1 := drop_next (p_kps p) in mkKps (s_cur k1) (s_prev k1) (Some (free_slot k1)) (lset (s_slots k1) (free_slot k1)
     (mkKp (snd (kdf2 C (h_ck (p_hs p)) [])) (g_now g) true (fst (kdf2 C (h_ck (p_hs p)) [])) (g_now g) true 0 wgrx_init (h_lidx (p_hs p)) (h_ridx (p_hs p)) false))) /\
  p_active p1 = p_active p /\ p_arr p1 = p_arr p /\ p_cnt p1 = p_cnt p.
Proof. intros H. unfold begin_session. rewrite H. cbn [hs_eqb negb andb]. destruct (kdf2 C _ _) as [t1 t2]. cbn [fst snd]. eexists. repeat split. Qed.
Lemma begin_session_init i g p : h_state (p_hs p) = ConsumedResp -> exists p1, begin_session C i g p =
  Some (p1, [ENew i (fst (kdf2 C (h_ck (p_hs p)) [])) (snd (kdf2 C (h_ck (p_hs p)) [])) (g_now g)]).
Proof. intros H. unfold begin_session. rewrite H. cbn [hs_eqb negb andb]. destruct (kdf2 C _ _) as [t1 t2]. cbn [fst snd]. eexists. reflexivity. Qed.

(** The responder's step. *)
Lemma responder_step a A b B g ps h t m j e x r E ip port psk :
  c_pub C a = Some A -> c_pub C b = Some B ->
  sent_init C A (c_hash C (LABEL_MAC1 ++ B)) h t m -> h_rstatic h = B -> c_dh C a B = Some (h_ss h) -> h_psk h = psk ->
  g_priv g = b -> g_pub g = B -> x_mac1key (g_chk g) = c_hash C (LABEL_MAC1 ++ B) ->
  (g_load g = false \/ cookie_validate C (g_chk g) m 182 ip port (g_now g) = MacCookie) ->
  find_pub ps A 0 = Some j -> (j < length ps)%nat ->
  let q := nth j ps peer_zero in
  h_rstatic (p_hs q) = A -> h_ss (p_hs q) = h_ss h -> h_psk (p_hs q) = psk -> c_mac1key (p_cookie q) = c_hash C (LABEL_MAC1 ++ A) ->
  (0 < p_lastinit q -> REKEY_TIMEOUT_MS <= u64 (g_now g - p_lastinit q)) -> lexgt (timestamp t) (p_ts q) = true ->
  c_pub C e = Some E -> u32 (rdle32 x) <> 0 ->
  exists d' m2 sk rk evs p3 g2, step C (g, ps) (ORecv m ip port) (e :: x :: r) = (d', EHello (Z.of_nat j) (timestamp t) (g_now g) :: EUdp ip port m2 :: ENew (Z.of_nat j) sk rk (g_now g) :: evs) /\
    (* what the initiator makes of the answer *)
    rdle32 m2 = 2 /\ zlen m2 = 157 /\ mr_receiver m2 = h_lidx h /\
    (forall y ip port now, x_mac1key y = c_hash C (LABEL_MAC1 ++ A) -> cookie_validate C y m2 93 ip port now <> MacInvalid) /\
    (forall gA, g_priv gA = a -> exists h1, consume_response C gA h m2 = Some h1 /\ kdf2 C (h_ck h1) [] = (rk, sk) /\ h_state h1 = ConsumedResp /\ h_lidx h1 = h_lidx h /\ h_ridx h1 = u32 (rdle32 x)) /\
    (* the responder's session *)
    (let k1 := drop_next (p_kps q) in
      p_kps p3 = mkKps (s_cur k1) (s_prev k1) (Some (free_slot k1)) (lset (s_slots k1) (free_slot k1) (mkKp sk (g_now g) true rk (g_now g) true 0 wgrx_init (u32 (rdle32 x)) (h_lidx h) false))) /\
    (p_active p3 = p_active q /\ p_arr p3 = p_arr q /\ p_cnt p3 = p_cnt q) /\ g_now g2 = g_now g /\ g_aips g2 = g_aips g /\ g_load g2 = g_load g /\
    exists g3 p4 ps', send_staged C (Z.of_nat j) g2 p3 = (g3, p4, evs) /\ d' = (g3, ps') /\ length ps' = length ps /\ nth j ps' peer_zero = p4 /\ (forall k, k <> j -> nth k ps' peer_zero = nth k ps peer_zero).
Proof.
  intros HA HB SI HR HS HPSK GP GB GM GL FP LJ q Q1 Q2 Q3 Q4 RL LX HE HX.
  set (g0 := up_hpc (up_rng g (e :: x :: r)) (u16 (g_hpc g + 1))).
  destruct (initiation_accepted a A b B g0 ps h t m j HA HB SI HR HS GP GB FP Q2 RL LX) as (h' & I1 & I2 & I3 & I4 & I5 & I6 & I7 & I8 & I9 & I10 & I11 & I12 & I13 & I14).
  fold q in I1, I7, I8.
  set (c0 := p_cookie q). set (p0 := up_ep (up_hello (up_hs q h') (timestamp t) (g_now g0)) ip port).
  set (mac2 := fun body : list Z => if c_valid c0 && (u64 (g_now g - c_birth c0) <=? COOKIE_AGE_MS) then c_hmac C (c_cookie c0) (body ++ c_hmac C (c_mac1key c0) body) else zbytes 32).
  assert (LM : forall y, length (mac2 y) = 32%nat) by (intros y; apply mac2_len; unfold mac2; destruct (_ && _); [right; eexists _, _; reflexivity|left; reflexivity]).
  (* the response is created with no reference to its trailing MACs *)
  destruct (response_accepted a A b B g0 h' h (up_key g a (g_pub g) (g_chk g)) e x r E (c_hash C (LABEL_MAC1 ++ A)) (zbytes 32) HA HB eq_refl HE HX I6 I13 I2 I3 I4 I5 ltac:(congruence) ltac:(congruence) eq_refl ltac:(lia) eq_refl)
    as (g1 & hB & body & R1 & R2 & _).
  assert (RA : forall gA, g_priv gA = a -> let m2 := body ++ c_hmac C (c_hash C (LABEL_MAC1 ++ A)) body ++ mac2 body in
    rdle32 m2 = 2 /\ zlen m2 = 157 /\ mr_receiver m2 = h_lidx h /\ h_state hB = CreatedResp /\ h_rstatic hB = A /\ h_ridx hB = h_lidx h /\ h_lidx hB = u32 (rdle32 x) /\
    exists h1, consume_response C gA h m2 = Some h1 /\ h_ck h1 = h_ck hB /\ h_state h1 = ConsumedResp /\ h_lidx h1 = h_lidx h /\ h_ridx h1 = h_lidx hB).
  { intros gA HG. destruct (response_accepted a A b B g0 h' h gA e x r E (c_hash C (LABEL_MAC1 ++ A)) (mac2 body) HA HB eq_refl HE HX I6 I13 I2 I3 I4 I5 ltac:(congruence) ltac:(congruence) HG ltac:(lia) (LM body))
      as (g1' & hB' & body' & R1' & R2' & R3'). rewrite R1 in R1'. injection R1' as <- <- <-. exact R3'. }
  destruct (RA (up_key g a (g_pub g) (g_chk g)) eq_refl) as (M1 & M2 & M3 & M4 & M5 & M6 & M7 & _).
  set (m2 := body ++ c_hmac C (c_hash C (LABEL_MAC1 ++ A)) body ++ mac2 body) in *.
  pose proof (create_response_same _ _ _ _ _ _ R1) as (N1 & N2 & N3 & N4 & N5 & N6 & N7).
  set (c1 := mkCookie (c_birth c0) (c_valid c0) (c_cookie c0) (c_hmac C (c_mac1key c0) body) true (c_deckey c0) (c_mac1key c0)).
  set (p2 := up_cookie (up_hs p0 hB) c1).
  destruct (begin_session_resp (Z.of_nat j) g1 p2 M4) as (p3 & B1 & B2 & B3).
  destruct (send_staged C (Z.of_nat j) g1 (up_tdone p3 (g_now g1))) as [[g3 p4] evs] eqn:ES.
  exists (g3, lset (lset ps j (up_hello (up_hs q h') (timestamp t) (g_now g0))) j p4), m2, (snd (kdf2 C (h_ck hB) [])), (fst (kdf2 C (h_ck hB) [])), evs, (up_tdone p3 (g_now g1)), g1.
  split.
  { unfold step, packet_receive. cbn [fst snd]. assert (Z4 : zlen m <? 4 = false) by lia. rewrite Z4, I11. change (1 =? 1) with true. cbn match. unfold handle_initiation.
    assert (Z5 : zlen m <? INIT_LEN = false) by (unfold INIT_LEN; lia). rewrite Z5. change (Z.to_nat INIT_MAC) with 182%nat.
    assert (BODY : forall st, (g_load g = false \/ st = MacCookie) -> (if g_load (up_rng g (e :: x :: r)) && negb (match st with MacCookie => true | _ => false end) then send_reply C (up_rng g (e :: x :: r), ps) m 182 ip port
      else let g1 := up_hpc (up_rng g (e :: x :: r)) (u16 (g_hpc (up_rng g (e :: x :: r)) + 1)) in match consume_initiation C g1 ps m with None => ((g1, ps), []) | Some (i, p, ts) =>
          let (d', e0) := on_peer (g1, lset ps i p) i (answer C (Z.of_nat i) ip port) in (d', EHello (Z.of_nat i) ts (g_now (up_rng g (e :: x :: r))) :: e0) end) =
      ((g3, lset (lset ps j (up_hello (up_hs q h') (timestamp t) (g_now g0))) j p4),
       EHello (Z.of_nat j) (timestamp t) (g_now g) :: EUdp ip port m2 :: ENew (Z.of_nat j) (snd (kdf2 C (h_ck hB) [])) (fst (kdf2 C (h_ck hB) [])) (g_now g) :: evs)).
    { intros st GS. change (g_load (up_rng g (e :: x :: r))) with (g_load g).
      assert (GE : g_load g && negb (match st with MacCookie => true | _ => false end) = false) by (destruct GS as [-> | ->]; [reflexivity|apply andb_false_r]). rewrite GE. cbv zeta. fold g0. change (up_hpc (up_rng g (e :: x :: r)) (u16 (g_hpc (up_rng g (e :: x :: r)) + 1))) with g0. rewrite I1.
      unfold on_peer. cbn [fst snd]. rewrite nth_lset_eq by exact LJ. unfold answer. fold p0. change (p_hs p0) with h'. rewrite R1. unfold add_macs.
      rewrite N1. change (g_now g0) with (g_now g). change (p_cookie p0) with c0.
      assert (EM : body ++ c_hmac C (c_mac1key c0) body ++ (if c_valid c0 && (u64 (g_now g - c_birth c0) <=? COOKIE_AGE_MS) then c_hmac C (c_cookie c0) (body ++ c_hmac C (c_mac1key c0) body) else zbytes 32) = m2)
        by (unfold m2, mac2; rewrite <- Q4; reflexivity).
      rewrite EM. change (mkCookie (c_birth c0) (c_valid c0) (c_cookie c0) (c_hmac C (c_mac1key c0) body) true (c_deckey c0) (c_mac1key c0)) with c1. fold p2. unfold finish.
      rewrite B1. unfold seq. rewrite ES. unfold skip. rewrite app_nil_r, N1. reflexivity. }
    pose proof (I14 (g_chk (up_rng g (e :: x :: r))) ip port (g_now (up_rng g (e :: x :: r))) GM) as NI. change (g_chk (up_rng g (e :: x :: r))) with (g_chk g) in *. change (g_now (up_rng g (e :: x :: r))) with (g_now g) in *.
    destruct (cookie_validate C (g_chk g) m 182 ip port (g_now g)); [destruct (NI eq_refl)|exact (BODY MacValid GL)|exact (BODY MacCookie GL)]. }
  split; [exact M1|]. split; [exact M2|]. split; [exact M3|].
  split; [intros y ip' port' now EX; unfold m2; rewrite <- EX; apply mac_ok; [exact R2|apply LM]|].
  split.
  { intros gA HG. destruct (RA gA HG) as (_ & _ & _ & _ & _ & _ & _ & h1 & K1 & K2 & K3 & K4 & K5). exists h1. split; [exact K1|]. rewrite K2. split; [destruct (kdf2 C (h_ck hB) []); reflexivity|].
    split; [exact K3|]. split; [exact K4|congruence]. }
  split; [cbv zeta; change (p_kps (up_tdone p3 (g_now g1))) with (p_kps p3); rewrite B2; change (p_kps p2) with (p_kps q); change (p_hs p2) with hB; rewrite M6, M7, N1; reflexivity|].
  split; [exact B3|]. split; [exact N1|]. split; [exact N4|]. split; [exact N6|].
  exists g3, p4, (lset (lset ps j (up_hello (up_hs q h') (timestamp t) (g_now g0))) j p4). split; [exact ES|]. split; [reflexivity|]. split; [rewrite !lset_length; reflexivity|].
  split; [apply nth_lset_eq; rewrite lset_length; exact LJ|]. intros k NK. rewrite !nth_lset_ne by exact NK. reflexivity.
Qed.
End Handshake.
