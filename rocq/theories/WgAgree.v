(** C72: two wolfGuard devices that run the handshake agree on the keys, and the
    packets that waited for it arrive. *)
From Verif Require Import Base ByteOrder ReplaySpec Arp WgAllowedIps WgCounter WgCounterProps EspReplayProps WgDevice WgDeviceInv WgDeviceRun WgDeviceProps WgToy WgStaging WgConf WgHandshake.

Definition keep (k k' : kps) : Prop := s_cur k' = s_cur k /\ s_prev k' = s_prev k /\ s_next k' = s_next k /\ length (s_slots k') = length (s_slots k) /\
  (forall s, k_lidx (slot k' s) = k_lidx (slot k s)) /\ (forall s, s_cur k <> Some s -> slot k' s = slot k s).
Lemma keep_refl k : keep k k.
Proof. repeat split. Qed.
Lemma keep_trans a b c : keep a b -> keep b c -> keep a c.
Proof.
  intros (A1 & A2 & A3 & A4 & A5 & A6) (B1 & B2 & B3 & B4 & B5 & B6). do 4 (split; [congruence|]). split; [intros s; rewrite B5; apply A5|].
  intros s H. transitivity (slot b s); [apply B6; congruence|apply A6, H].
Qed.
Lemma slot_up k i v s : slot (up_slot k i v) s = if Nat.eqb s i && (i <? length (s_slots k))%nat then v else slot k s.
Proof.
  unfold slot, up_slot. cbn [s_slots]. destruct (Nat.eqb_spec s i) as [->|N]; cbn [andb]; [|apply nth_lset_ne, N].
  destruct (Nat.ltb_spec i (length (s_slots k))) as [L|L]; [apply nth_lset_eq, L|]. rewrite !nth_overflow; [reflexivity|exact L|rewrite lset_length; exact L].
Qed.
Lemma keep_slot k s v : s_cur k = Some s -> k_lidx v = k_lidx (slot k s) -> keep k (up_slot k s v).
Proof.
  intros E H. repeat (split; [reflexivity|]). split; [apply lset_length|]. split; intros t.
  - rewrite slot_up. destruct (Nat.eqb_spec t s) as [->|]; cbn [andb]; [|reflexivity]. destruct (_ <? _)%nat; [exact H|reflexivity].
  - intros N. rewrite slot_up. destruct (Nat.eqb_spec t s) as [->|]; [congruence|reflexivity].
Qed.

Section Keep.
Context (C : crypto).
Definition kact (f : act) : Prop := forall g p, let '(g', p', e) := f g p in keep (p_kps p) (p_kps p').
Lemma keep_initiate i : kact (initiate C i).
Proof. intros g p. unfold initiate. destruct (create_initiation C g (p_hs p)) as [[g1 h1] [m|]]; [destruct (add_macs C _ _ _)|]; apply keep_refl. Qed.
Lemma stage_kps p pkt : p_kps (stage p pkt) = p_kps p.
Proof. unfold stage. destruct (_ <=? _); reflexivity. Qed.
Lemma keep_packet i pkt : kact (packet_send C i pkt).
Proof.
  intros g p. unfold packet_send.
  assert (NS : let '(g', p', e) := (let p1 := stage p pkt in if hs_eqb (h_state (p_hs p1)) Zeroed then initiate C i g p1 else (g, p1, [])) in keep (p_kps p) (p_kps p')).
  { cbn zeta. pose proof (keep_initiate i g (stage p pkt)) as H. rewrite stage_kps in H. destruct (hs_eqb _ _); [exact H|]. rewrite stage_kps. apply keep_refl. }
  destruct (s_cur (p_kps p)) as [s|] eqn:EC; [|exact NS]. destruct (negb _); [exact NS|]. cbn zeta. clear NS.
  destruct (_ || _); [rewrite stage_kps; apply keep_slot; [exact EC|reflexivity]|]. destruct (_ <? _); [apply keep_refl|].
  destruct (c_enc C _ _ _ _) as [ct|]; [|apply keep_refl]. set (p2 := up_tsent _ _ _).
  assert (K2 : keep (p_kps p) (p_kps p2)) by (apply keep_slot; [exact EC|reflexivity]). clearbody p2.
  destruct (_ && _); [|exact K2]. pose proof (keep_initiate i g p2) as H. destruct (initiate C i g p2) as [[g3 p3] e3]. eapply keep_trans; eassumption.
Qed.
Lemma keep_loop i n : forall j, kact (staged_loop C i n j).
Proof.
  induction n as [|n IH]; intros j g p; cbn [staged_loop]; [apply keep_refl|]. unfold seq. set (p0 := up_stg _ _ _).
  pose proof (keep_packet i (nth j (p_arr p) []) g p0) as H1. destruct (packet_send C i _ g p0) as [[g1 p1] e1].
  pose proof (IH (S j) g1 p1) as H2. destruct (staged_loop C i n (S j) g1 p1) as [[g2 p2] e2]. exact (keep_trans _ _ _ H1 H2).
Qed.
Lemma keep_staged i : kact (send_staged C i).
Proof. intros g p. unfold send_staged. apply (keep_loop i _ 0 g (up_stg p (p_arr p) 0)). Qed.
End Keep.

(** ** Finding the session of a data message *)
Lemma find_idx_none ps x : forall i k, find_idx ps x i = None -> (k < length ps)%nat -> p_active (nth k ps peer_zero) = true ->
  let q := p_kps (nth k ps peer_zero) in match_idx q (s_cur q) x = false /\ match_idx q (s_prev q) x = false /\ match_idx q (s_next q) x = false.
Proof.
  induction ps as [|p ps IH]; intros i k H L HA; [cbn in L; lia|]. cbn [find_idx] in H. destruct k as [|k].
  - cbn [nth] in *. rewrite HA in H. cbn [negb] in H.
    destruct (match_idx (p_kps p) (s_cur (p_kps p)) x) eqn:E1; [unfold match_idx in E1; destruct (s_cur (p_kps p)); [discriminate H|discriminate E1]|].
    destruct (match_idx (p_kps p) (s_prev (p_kps p)) x) eqn:E2; [unfold match_idx in E2; destruct (s_prev (p_kps p)); [discriminate H|discriminate E2]|].
    destruct (match_idx (p_kps p) (s_next (p_kps p)) x) eqn:E3; [unfold match_idx in E3; destruct (s_next (p_kps p)); [discriminate H|discriminate E3]|]. repeat split.
  - cbn [nth length] in *. apply (IH (S i)); [|lia|exact HA]. destruct (p_active p); cbn [negb] in H; [|exact H].
    destruct (match_idx _ (s_cur _) _) eqn:E1; [unfold match_idx in E1; destruct (s_cur (p_kps p)); [discriminate H|discriminate E1]|].
    destruct (match_idx _ (s_prev _) _) eqn:E2; [unfold match_idx in E2; destruct (s_prev (p_kps p)); [discriminate H|discriminate E2]|].
    destruct (match_idx _ (s_next _) _) eqn:E3; [unfold match_idx in E3; destruct (s_next (p_kps p)); [discriminate H|discriminate E3]|]. exact H.
Qed.
Definition quiet_peer (p : peer) (x : Z) : Prop := p_active p = true -> match_idx (p_kps p) (s_cur (p_kps p)) x = false /\ match_idx (p_kps p) (s_prev (p_kps p)) x = false /\ match_idx (p_kps p) (s_next (p_kps p)) x = false.
Lemma find_idx_first ps x s : forall i j, (j < length ps)%nat -> p_active (nth j ps peer_zero) = true -> (forall k, (k < j)%nat -> quiet_peer (nth k ps peer_zero) x) ->
  let q := p_kps (nth j ps peer_zero) in k_lidx (slot q s) = x ->
  (s_cur q = Some s \/ (match_idx q (s_cur q) x = false /\ match_idx q (s_prev q) x = false /\ s_next q = Some s)) -> find_idx ps x i = Some ((i + j)%nat, s).
Proof.
  induction ps as [|p ps IH]; intros i j L HA HQ q HL HC; [cbn in L; lia|]. cbn [find_idx]. destruct j as [|j].
  - cbn [nth] in *. rewrite HA. cbn [negb]. rewrite Nat.add_0_r. fold q. destruct HC as [E|(E1 & E2 & E3)].
    + unfold match_idx. rewrite E, HL, Z.eqb_refl. reflexivity.
    + rewrite E1, E2. unfold match_idx. rewrite E3, HL, Z.eqb_refl. reflexivity.
  - cbn [nth length] in *. specialize (IH (S i) j ltac:(lia) HA ltac:(intros k Hk; exact (HQ (S k) ltac:(lia))) HL HC). rewrite IH. replace (S i + j)%nat with (i + S j)%nat by lia.
    destruct (p_active p) eqn:EA; cbn [negb]; [|reflexivity]. destruct (HQ 0%nat ltac:(lia) EA) as (Q1 & Q2 & Q3). cbn [nth] in *. rewrite Q1, Q2, Q3. reflexivity.
Qed.

Section Agree.
Context (C : crypto) (OK : crypto_ok C).
Lemma Henc : forall k n p a, c_enc C k n p a <> None.
Proof. intros k n p a. destruct (co_enc C OK k n p a) as (c & E & _). congruence. Qed.
Lemma sealed_ok k c q : zlen (sealed C k c q) = zlen q + 16 /\ c_dec C k c (sealed C k c q) [] = Some q.
Proof. unfold sealed. destruct (co_enc C OK k c q []) as (ct & E & E1 & E2). rewrite E. split; assumption. Qed.

Lemma header_fields ri c rest : 0 <= ri < 2 ^ 32 -> 0 <= c < 2 ^ 64 -> let b := data_header ri c ++ rest in
  rdle32 b = 4 /\ rdle32 (slice b 4 4) = ri /\ rdle64 (slice b 8 8) = c /\ skipn 16 b = rest /\ zlen b = 16 + zlen rest.
Proof.
  intros HR HC b. assert (EB : b = le32 4 ++ le32 ri ++ le64 c ++ rest) by (unfold b, data_header; rewrite <- !app_assoc; reflexivity). rewrite EB.
  split; [apply rdle32_le32; lia|].
  split; [rewrite (slice_mid (le32 4) (le32 ri)) by reflexivity; apply rdle32_le32'; lia|].
  split.
  { rewrite (app_assoc (le32 4)), slice_mid by reflexivity. unfold rdle64, le64. change (skipn 4 (le32 (u32 c) ++ le32 (u32 (c / 4294967296)))) with (le32 (u32 (c / 4294967296))).
    assert (U1 : 0 <= u32 c < 4294967296) by (apply Z.mod_pos_bound; lia). assert (U2 : u32 (c / 4294967296) = c / 4294967296).
    { apply Z.mod_small. split; [apply Z.div_pos; lia|apply Z.div_lt_upper_bound; lia]. }
    assert (R1 := rdle32_le32 (u32 c) (le32 (u32 (c / 4294967296))) U1). unfold rdle32 in R1. rewrite R1, U2.
    assert (R2 := rdle32_le32' (c / 4294967296) ltac:(split; [apply Z.div_pos; lia|apply Z.div_lt_upper_bound; lia])). unfold rdle32 in R2. rewrite R2.
    unfold u32. pose proof (Z.div_mod c 4294967296 ltac:(lia)). lia. }
  split; [reflexivity|]. unfold zlen. rewrite !app_length. cbn [length le32 le64 app]. lia.
Qed.

(** Peer [j] of device [d] has, at time [t], a session in slot [s]: local index
    [ri], receiving key [rk], and has accepted the counters [acc]. *)
Record receiving (d : dev) (j s : nat) (rk : list Z) (ri t : Z) (acc : list Z) : Prop := {
  rv_now : g_now (fst d) = t;
  rv_len : (j < length (snd d))%nat;
  rv_act : p_active (nth j (snd d) peer_zero) = true;
  rv_before : forall k, (k < j)%nat -> quiet_peer (nth k (snd d) peer_zero) ri;
  rv_slen : (s < length (s_slots (p_kps (nth j (snd d) peer_zero))))%nat;
  rv_slot : let k := slot (p_kps (nth j (snd d) peer_zero)) s in k_rvalid k = true /\ k_rbirth k = t /\ k_rkey k = rk /\ k_lidx k = ri;
  rv_win : WInv (k_rx (slot (p_kps (nth j (snd d) peer_zero)) s)) acc;
  rv_ptr : let q := p_kps (nth j (snd d) peer_zero) in (s_cur q = Some s /\ s_next q = None) \/
    (match_idx q (s_cur q) ri = false /\ match_idx q (s_prev q) ri = false /\ s_next q = Some s /\ s_prev q <> Some s)
}.

Lemma receive_one d j s rk ri t acc c q ip port r : receiving d j s rk ri t acc -> 0 <= ri < 2 ^ 32 -> 0 <= c < 2 ^ 63 -> zlen q <= 1536 ->
  newest 0 acc - 1024 < c ->
  exists d', step C d (ORecv (data_header ri c ++ sealed C rk c q) ip port) r =
    (d', if in_dec Z.eq_dec c acc then [] else EAcc (Z.of_nat j) rk c q t :: match wg_inject (g_aips (fst d)) (Z.of_nat j) q with Some x => [EInj (Z.of_nat j) x] | None => [] end) /\
    g_aips (fst d') = g_aips (fst d) /\ receiving d' j s rk ri t (if in_dec Z.eq_dec c acc then acc else acc ++ [c]).
Proof.
  intros [R1 R2 R3 R4 R5 R6 R7 R8] HR HC HQ HF. destruct (header_fields ri c (sealed C rk c q) HR ltac:(lia)) as (F1 & F2 & F3 & F4 & F5).
  destruct (sealed_ok rk c q) as (SL & SD). set (b := data_header ri c ++ sealed C rk c q) in *. cbn zeta in *. destruct d as [g ps]. cbn [fst snd] in *.
  set (p := nth j ps peer_zero) in *. destruct R6 as (K1 & K2 & K3 & K4).
  assert (FI : find_idx ps ri 0 = Some (j, s)).
  { apply (find_idx_first ps ri s 0 j R2 R3 R4 K4). destruct R8 as [(X & _)|(X & Y & Z0 & _)]; [left; exact X|right; repeat split; assumption]. }
  unfold step, packet_receive. cbn [fst snd]. assert (Z4 : (zlen b <? 4) = false) by (unfold zlen in *; lia). rewrite Z4, F1. change (4 =? 1) with false. change (4 =? 2) with false. change (4 =? 3) with false. change (4 =? 4) with true. cbn match.
  unfold handle_data. assert (Z5 : (zlen b <? 32) = false) by (unfold zlen in *; lia). rewrite Z5, F2, F3, F4, FI. fold p. rewrite K1, K2, K3. cbn [negb]. change (g_now (up_rng g r)) with (g_now g). rewrite R1, Z.sub_diag.
  change (REJECT_AFTER_MS <=? u64 0) with false. cbn match. assert (Z6 : (LINK_MTU <? zlen b - 32) = false) by (unfold LINK_MTU; lia). rewrite Z6, SD.
  destruct (wg_step _ _ c true R7 ltac:(lia)) as (rx & v & E1 & E2 & E3). unfold wg_inbound in E1. cbn [negb] in E1. injection E1 as E1. rewrite E1.
  assert (LIM : c < WG_REJECT_AFTER_MESSAGES) by (unfold WG_REJECT_AFTER_MESSAGES, WG_WINDOW; lia).
  set (p1 := up_kps p (up_slot (p_kps p) s (kp_rx (slot (p_kps p) s) rx))).
  assert (S1 : slot (p_kps p1) s = kp_rx (slot (p_kps p) s) rx).
  { unfold p1. cbn [up_kps p_kps]. rewrite slot_up, Nat.eqb_refl. destruct (Nat.ltb_spec s (length (s_slots (p_kps p)))); [reflexivity|lia]. }
  assert (MI : forall o, o <> Some s -> match_idx (p_kps p1) o ri = match_idx (p_kps p) o ri).
  { intros [y|] N; [|reflexivity]. unfold match_idx, p1. cbn [up_kps p_kps]. rewrite slot_up. destruct (Nat.eqb_spec y s); [congruence|]. reflexivity. }
  assert (LS1 : length (s_slots (p_kps p1)) = length (s_slots (p_kps p))) by apply lset_length.
  assert (MC : match_idx (p_kps p) (Some s) ri = true) by (unfold match_idx; rewrite K4; apply Z.eqb_refl).
  assert (GEN : forall p2 acc', p_active p2 = true -> length (s_slots (p_kps p2)) = length (s_slots (p_kps p)) ->
    slot (p_kps p2) s = kp_rx (slot (p_kps p) s) rx -> WInv rx acc' -> (let q := p_kps p2 in (s_cur q = Some s /\ s_next q = None) \/
    (match_idx q (s_cur q) ri = false /\ match_idx q (s_prev q) ri = false /\ s_next q = Some s /\ s_prev q <> Some s)) ->
    receiving (up_rng g r, lset ps j p2) j s rk ri t acc').
  { intros p2 acc' A1 A2 A3 A4 A5. constructor; cbn [fst snd].
    - exact R1. - rewrite lset_length. exact R2. - rewrite nth_lset_eq by exact R2. exact A1.
    - intros k Hk. rewrite nth_lset_ne by lia. apply R4, Hk. - rewrite nth_lset_eq by exact R2. rewrite A2. exact R5.
    - rewrite nth_lset_eq by exact R2. rewrite A3. cbn [kp_rx k_rvalid k_rbirth k_rkey k_lidx]. repeat split; assumption.
    - rewrite nth_lset_eq by exact R2. rewrite A3. exact A4. - rewrite nth_lset_eq by exact R2. exact A5. }
  destruct (in_dec Z.eq_dec c acc) as [IN|NI].
  - assert (v = false) as -> by (destruct v; [|reflexivity]; destruct (proj1 E2 eq_refl) as (_ & _ & X & _); contradiction). cbn [negb].
    eexists. split; [reflexivity|]. split; [reflexivity|]. apply GEN; [exact R3|exact LS1|exact S1|exact E3|].
    cbn zeta. change (s_cur (p_kps p1)) with (s_cur (p_kps p)). change (s_next (p_kps p1)) with (s_next (p_kps p)). change (s_prev (p_kps p1)) with (s_prev (p_kps p)).
    destruct R8 as [X|(X1 & X2 & X3 & X4)]; [left; exact X|right]. rewrite !MI by congruence. repeat split; assumption.
  - assert (v = true) as -> by (apply E2; split; [reflexivity|]; split; [exact LIM|]; split; [exact NI|lia]). cbn [negb].
    eexists. split; [reflexivity|]. split; [reflexivity|].
    set (p2 := up_kps p1 (confirm (p_kps p1) s)). match goal with |- receiving (_, lset _ _ ?pp) _ _ _ _ _ _ => set (p4 := pp) end.
    assert (CC : p_kps p4 = confirm (p_kps p1) s) by reflexivity. apply GEN; [exact R3| | |exact E3|]; rewrite CC; unfold confirm;
      change (s_cur (p_kps p1)) with (s_cur (p_kps p)); change (s_next (p_kps p1)) with (s_next (p_kps p)); change (s_prev (p_kps p1)) with (s_prev (p_kps p));
      destruct R8 as [(X & Y)|(X1 & X2 & X3 & X4)].
    + rewrite Y. exact LS1.
    + rewrite X3. cbn [oeqb]. rewrite Nat.eqb_refl. cbn [s_slots]. destruct (s_prev (p_kps p)); [rewrite lset_length|]; exact LS1.
    + rewrite Y. exact S1.
    + rewrite X3. cbn [oeqb]. rewrite Nat.eqb_refl. rewrite <- S1. unfold slot. cbn [s_slots]. destruct (s_prev (p_kps p)) as [pv|]; [|reflexivity]. apply nth_lset_ne. congruence.
    + left. rewrite Y. split; assumption.
    + left. rewrite X3. cbn [oeqb]. rewrite Nat.eqb_refl. split; reflexivity.
Qed.

(** What a device that receives, at time [t], the numbered messages [cs] of the
    packets [qs] from peer [j] does: each packet is accepted the first time, and
    handed to the stack if its source address is one of that peer's. *)
Fixpoint hears (j : Z) (rk : list Z) (t : Z) (aips : list aip) (qs : list (list Z)) (seen cs : list nat) : list ev :=
  match cs with
  | [] => []
  | c :: cs' => if in_dec Nat.eq_dec c seen then hears j rk t aips qs seen cs'
      else EAcc j rk (Z.of_nat c) (nth c qs []) t :: match wg_inject aips j (nth c qs []) with Some x => [EInj j x] | None => [] end ++ hears j rk t aips qs (seen ++ [c]) cs'
  end.

Lemma newest_small acc n : 0 <= n -> (forall c, In c acc -> c <= n) -> newest 0 acc <= n.
Proof. intros. apply newest_le; assumption. Qed.
Lemma run_hears qs rk ri j s t aips : 0 <= ri < 2 ^ 32 -> (length qs <= 1000)%nat -> Forall (fun q => zlen q <= 1536) qs ->
  forall (cs : list (nat * (Z * Z))) seen d, Forall (fun a => (fst a < length qs)%nat) cs -> Forall (fun c => (c < length qs)%nat) seen -> g_aips (fst d) = aips ->
  receiving d j s rk ri t (map Z.of_nat seen) ->
  snd (run C d (map (fun a => (ORecv (data_header ri (Z.of_nat (fst a)) ++ sealed C rk (Z.of_nat (fst a)) (nth (fst a) qs [])) (fst (snd a)) (snd (snd a)), [])) cs)) = hears (Z.of_nat j) rk t aips qs seen (map fst cs).
Proof.
  intros HR HL HQ. induction cs as [|[c [ip port]] cs IH]; intros seen d HC HS HA HV; [reflexivity|]. inversion HC as [|? ? HC1 HC2]; subst. cbn [map run hears fst snd] in *.
  assert (LQ : zlen (nth c qs []) <= 1536) by (rewrite Forall_forall in HQ; apply HQ, nth_In, HC1).
  assert (NW : newest 0 (map Z.of_nat seen) - 1024 < Z.of_nat c).
  { assert (newest 0 (map Z.of_nat seen) <= 1000); [|lia]. apply newest_small; [lia|]. intros x Hx. apply in_map_iff in Hx. destruct Hx as (y & <- & Hy). rewrite Forall_forall in HS. specialize (HS y Hy). lia. }
  destruct (receive_one d j s rk ri t _ (Z.of_nat c) (nth c qs []) ip port [] HV HR ltac:(lia) LQ NW) as (d' & E & EA & RV). rewrite E.
  assert (DD : forall (X : Type) (y z : X), (if in_dec Z.eq_dec (Z.of_nat c) (map Z.of_nat seen) then y else z) = if in_dec Nat.eq_dec c seen then y else z).
  { intros X y z. destruct (in_dec Z.eq_dec _ _) as [I|N], (in_dec Nat.eq_dec _ _) as [I'|N']; try reflexivity; exfalso.
    - apply in_map_iff in I. destruct I as (w & EW & Iw). apply N'. apply Nat2Z.inj in EW. congruence.
    - apply N. apply in_map, I'. }
  rewrite DD in RV. rewrite DD. destruct (in_dec Nat.eq_dec c seen) as [I|N].
  - specialize (IH seen d' HC2 HS EA RV). destruct (run C d' _) as [d2 e2]. exact IH.
  - assert (RV' : receiving d' j s rk ri t (map Z.of_nat (seen ++ [c]))) by (rewrite map_app; exact RV).
    specialize (IH (seen ++ [c]) d' HC2 ltac:(apply Forall_app; split; [exact HS|constructor; [exact HC1|constructor]]) EA RV'). destruct (run C d' _) as [d2 e2]. cbn [snd] in *. rewrite IH. reflexivity.
Qed.

Lemma wires_nth ri key l : forall c k, (k < length l)%nat -> nth k (wires C ri key c l) [] = data_header ri (c + Z.of_nat k) ++ sealed C key (c + Z.of_nat k) (nth k l []).
Proof.
  induction l as [|q l IH]; intros c k Hk; cbn [length] in Hk; [lia|]. cbn [wires]. destruct k as [|k].
  - cbn [nth]. rewrite Z.add_0_r. reflexivity.
  - cbn [nth]. rewrite IH by lia. replace (c + 1 + Z.of_nat k) with (c + Z.of_nat (S k)) by lia. reflexivity.
Qed.
Lemma wires_length ri key l : forall c, length (wires C ri key c l) = length l.
Proof. induction l as [|q l IH]; intros c; [reflexivity|]. cbn [wires length]. rewrite IH. reflexivity. Qed.

(** Two configured devices; the first one's handshake with the second is open.
    [opsA], [opsB]: any calls since the private key was set. *)
Record ready (a A b B psk : list Z) (ra rb : list (list Z)) (opsA opsB : list (op * list (list Z))) (i j : nat) (tA : Z) (m : list Z) : Prop := {
  (* the key pairs, and each knows the other's key and the same pre-shared key *)
  rd_a : c_pub C a = Some A; rd_b : c_pub C b = Some B;
  rd_ka : no_rekey opsA; rd_kb : no_rekey opsB;
  rd_i : (i < 8)%nat; rd_j : (j < 8)%nat;
  rd_pa : nth_error (peers_of opsA) i = Some (B, psk);
  rd_pb : nth_error (peers_of opsB) j = Some (A, psk);
  rd_first : forall k q, (k < j)%nat -> nth_error (peers_of opsB) k <> Some (A, q);
  rd_ha : hist_ok 0 ((OKey a, ra) :: opsA); rd_hb : hist_ok 0 ((OKey b, rb) :: opsB);
  (* [m] is the last initiation A created for B, at [tA], and A waits for the answer to it alone *)
  rd_last : last_init (Z.of_nat i) (trace C ((OKey a, ra) :: opsA)) = Some (tA, m);
  rd_wait : forall k, (k < 8)%nat -> waits (fst (run C dev_init ((OKey a, ra) :: opsA))) k (mi_sender m) <-> k = i;
  rd_time : 0 <= tA < 2 ^ 64;
  (* B has not accepted a newer initiation of A, nor any in the last 5 s *)
  rd_hello : match last_hello (Z.of_nat j) (trace C ((OKey b, rb) :: opsB)) with None => True
    | Some (ts, t) => lexgt (timestamp tA) ts = true /\ 0 <= t /\ t + 5000 <= g_now (fst (fst (run C dev_init ((OKey b, rb) :: opsB)))) end;
  (* neither is under load *)
  rd_la : g_load (fst (fst (run C dev_init ((OKey a, ra) :: opsA)))) = false;
  rd_lb : g_load (fst (fst (run C dev_init ((OKey b, rb) :: opsB)))) = false
}.

Lemma now_run ops : hist_ok 0 ops -> dev_wf (fst (run C dev_init ops)) /\ 0 <= g_now (fst (fst (run C dev_init ops))) < 2 ^ 64.
Proof.
  assert (X : forall l d0, dev_wf d0 -> 0 <= g_now (fst d0) < 2 ^ 64 -> hist_ok (g_now (fst d0)) l -> dev_wf (fst (run C d0 l)) /\ 0 <= g_now (fst (fst (run C d0 l))) < 2 ^ 64).
  { induction l as [|(o, x) l IH]; intros d0 W0 N0 HH; cbn [run]; [split; assumption|]. destruct HH as (H1 & H2). destruct (step_ok C d0 o x W0 H1) as ((W1 & _) & EN).
    destruct (step C d0 o x) as [d1 e1]. cbn [fst snd] in *. specialize (IH d1 W1). rewrite EN in IH. destruct (run C d1 l) as [d2 e2]. cbn [fst] in *. apply IH; [|exact H2].
    destruct o; cbn [op_ok op_now] in *; lia. }
  intros H. apply X; [apply dev_init_wf|cbn; lia|exact H].
Qed.
Lemma lexgt_zero t : 0 <= t < 2 ^ 64 -> lexgt (timestamp t) (zbytes 12) = true.
Proof.
  intros H. set (v := 4611686018427387914 + t / 1000). assert (V : 2 ^ 62 <= v < 2 ^ 63).
  { pose proof (Z.div_pos t 1000 ltac:(lia) ltac:(lia)). assert (t / 1000 < 2 ^ 60) by (apply Z.div_lt_upper_bound; lia). unfold v. lia. }
  unfold timestamp. fold v. unfold u64. rewrite (Z.mod_small v) by lia.
  assert (W : 2 ^ 30 <= v / 4294967296 < 2 ^ 31) by (split; [apply Z.div_le_lower_bound; lia|apply Z.div_lt_upper_bound; lia]).
  unfold be64. unfold u32 at 1. rewrite (Z.mod_small (v / 4294967296)) by lia. unfold be32 at 1. cbn [app zbytes repeat lexgt]. rewrite Z.shiftr_div_pow2 by lia.
  assert (X : 2 ^ 6 <= v / 4294967296 / 2 ^ 24 < 2 ^ 7) by (split; [apply Z.div_le_lower_bound; lia|apply Z.div_lt_upper_bound; lia]).
  rewrite (Z.mod_small _ 256) by lia. destruct (Z.eqb_spec (v / 4294967296 / 2 ^ 24) 0); [lia|]. apply Z.ltb_lt. lia.
Qed.

Lemma drop_next_match k o x : kps_wf k -> o = s_cur k \/ o = s_prev k -> match_idx (drop_next k) o x = match_idx k o x.
Proof.
  intros W H. unfold drop_next. destruct (s_next k) as [n|] eqn:E; [|reflexivity]. destruct W as [_ _ _ _ _ CN PN]. rewrite E in CN, PN. destruct o as [y|]; [|reflexivity].
  assert (y <> n) by (destruct H as [H|H]; rewrite <- H in *; assumption). unfold match_idx, slot. cbn [s_slots]. rewrite nth_lset_ne by assumption. reflexivity.
Qed.
Lemma drop_next_ptr k : s_cur (drop_next k) = s_cur k /\ s_prev (drop_next k) = s_prev k.
Proof. unfold drop_next. destruct (s_next k); split; reflexivity. Qed.

Lemma exchange a A b B psk ra rb opsA opsB i j tA m e x r E ipA portA ipB portB rA :
  ready a A b B psk ra rb opsA opsB i j tA m -> c_pub C e = Some E -> u32 (rdle32 x) <> 0 ->
  let dA := fst (run C dev_init ((OKey a, ra) :: opsA)) in
  let dB := fst (run C dev_init ((OKey b, rb) :: opsB)) in
  let queue := waiting (nth i (snd dA) peer_zero) in
  exists m2 kAB kBA dB' eB dA' eA,
    step C dB (ORecv m ipA portA) (e :: x :: r) = (dB', EHello (Z.of_nat j) (timestamp tA) (g_now (fst dB)) :: EUdp ipA portA m2 :: ENew (Z.of_nat j) kBA kAB (g_now (fst dB)) :: eB) /\
    step C dA (ORecv m2 ipB portB) rA = (dA', ENew (Z.of_nat i) kAB kBA (g_now (fst dA)) :: eA) /\
    waiting (nth i (snd dA') peer_zero) = [] /\ udps eA = wires C (u32 (rdle32 x)) kAB 0 (flushed queue) /\
    (find_idx (snd dB) (u32 (rdle32 x)) 0 = None -> g_aips (fst dB') = g_aips (fst dB) /\ exists s, receiving dB' j s kAB (u32 (rdle32 x)) (g_now (fst dB)) []).
Proof.
  intros R HE HX dA dB queue. destruct R as [r_a r_b r_ka r_kb r_i r_j r_pa r_pb r_first r_ha r_hb r_last r_wait r_time r_hello r_la r_lb].
  destruct (CI_all C a A opsA ra r_a r_ka) as (LA & GA & PA). fold dA in LA, GA, PA.
  destruct (CI_all C b B opsB rb r_b r_kb) as (LB & GB & PB). fold dB in LB, GB, PB.
  pose proof (PA i r_i) as Pi. rewrite r_pa in Pi. pose proof (PB j r_j) as Pj. rewrite r_pb in Pj.
  destruct (co_dh C OK _ _ _ _ r_a r_b) as (ss & D1 & D2).
  destruct (pi_hs _ _ _ _ _ _ _ _ Pi ss D1) as (H1 & H2 & H3). destruct (pi_hs _ _ _ _ _ _ _ _ Pj ss D2) as (J1 & J2 & J3).
  fold (trace C ((OKey a, ra) :: opsA)) in Pi. rewrite r_last in Pi. fold (trace C ((OKey b, rb) :: opsB)) in Pj.
  fold dA in r_wait, r_la. fold dB in r_hello, r_lb.
  destruct (proj2 (r_wait i r_i) eq_refl) as (W1 & W2 & W3).
  pose proof (pi_wait _ _ _ _ _ _ _ _ Pi W2 tA m eq_refl) as SI.
  assert (FP : find_pub (snd dB) A 0 = Some j).
  { apply (find_pub_first (snd dB) A 0 j); [lia|apply (pi_act _ _ _ _ _ _ _ _ Pj)|apply (pi_pub _ _ _ _ _ _ _ _ Pj)|]. intros k Hk HAc Hpub. pose proof (PB k ltac:(lia)) as Pk.
    destruct (nth_error (peers_of opsB) k) as [[pk qk]|] eqn:EK; [|destruct Pk; congruence]. pose proof (pi_pub _ _ _ _ _ _ _ _ Pk) as E1. assert (pk = A) as -> by congruence. exact (r_first k qk Hk EK). }
  destruct (now_run _ r_ha) as (WA & NA). destruct (now_run _ r_hb) as (WB & NB). fold dA in WA, NA. fold dB in WB, NB.
  pose proof (qok_run C Henc _ r_ha) as QK. fold dA in QK.
  assert (EB : exists gB psB, dB = (gB, psB)) by (destruct dB; eauto). destruct EB as (gB & psB & EB). assert (EA : exists gA psA, dA = (gA, psA)) by (destruct dA; eauto). destruct EA as (gA & psA & EA).
  rewrite EB in *. unfold queue. clear queue. rewrite EA in *. clear EA EB dA dB. cbn [fst snd] in *. set (hA := p_hs (nth i psA peer_zero)) in *.
  assert (RL : 0 < p_lastinit (nth j psB peer_zero) -> REKEY_TIMEOUT_MS <= u64 (g_now gB - p_lastinit (nth j psB peer_zero))).
  { pose proof (pi_ts _ _ _ _ _ _ _ _ Pj) as T. destruct (last_hello _ _) as [[ts t]|]; destruct T as (T1 & T2); rewrite T2; [|lia]. intros _. unfold REKEY_TIMEOUT_MS. destruct r_hello as (_ & U1 & U2). unfold u64. rewrite Z.mod_small; lia. }
  assert (LX : lexgt (timestamp tA) (p_ts (nth j psB peer_zero)) = true).
  { pose proof (pi_ts _ _ _ _ _ _ _ _ Pj) as T. destruct (last_hello _ _) as [[ts t]|]; destruct T as (T1 & T2); rewrite T1; [apply r_hello|apply lexgt_zero, r_time]. }
  destruct (responder_step C OK a A b B gB psB hA tA m j e x r E ipA portA psk r_a r_b SI H1 ltac:(congruence) H3 (gi_priv _ _ _ _ GB) (gi_pub _ _ _ _ GB) (gi_mac _ _ _ _ GB) (or_introl r_lb) FP ltac:(lia) J1 ltac:(congruence) J3 (pi_mac _ _ _ _ _ _ _ _ Pj) RL LX HE HX)
    as (dB' & m2 & sk & rk & evs & p3 & g2 & S1 & M1 & M2 & M3 & M4 & M5 & K1 & K2 & K3 & K4 & K5 & g3 & p4 & ps' & T1 & T2 & T3 & T4 & T5).
  exists m2, rk, sk, dB', evs.
  (* the initiator *)
  destruct (M5 (up_hpc (up_rng gA rA) (u16 (g_hpc gA + 1))) (gi_priv _ _ _ _ GA)) as (h1 & C1 & C2 & C3 & C4 & C5).
  set (p1 := up_ep (up_hs (nth i psA peer_zero) h1) ipB portB). set (g1 := up_hpc (up_rng gA rA) (u16 (g_hpc gA + 1))) in *.
  assert (WP : peer_wf p1) by (eapply wf_fields; [apply (nth_wf (gA, psA) i WA)|reflexivity|reflexivity|reflexivity]).
  assert (QP : qok p1) by (apply (qok_fields (nth i psA peer_zero)); [reflexivity|reflexivity|]; apply (qok_nth (gA, psA) i); exact QK).
  destruct (finish_flush C Henc (Z.of_nat i) g1 p1 WP QP C3 NA) as (sk1 & rk1 & p2 & eA & F1 & F2 & F3 & F4 & F5 & F6).
  change (h_ck (p_hs p1)) with (h_ck h1) in F6. rewrite C2 in F6. injection F6 as -> ->. change (h_ridx (p_hs p1)) with (h_ridx h1) in F5. rewrite C5 in F5.
  change (waiting p1) with (waiting (nth i psA peer_zero)) in F5.
  exists (g1, lset (lset psA i p1) i p2), eA. split; [exact S1|]. split.
  { unfold step, packet_receive. cbn [fst snd]. assert (Z4 : (zlen m2 <? 4) = false) by lia. rewrite Z4, M1. change (2 =? 1) with false. change (2 =? 2) with true. cbn match.
    unfold handle_response. assert (Z5 : (zlen m2 <? RESP_LEN) = false) by (unfold RESP_LEN; lia). rewrite Z5.
    assert (BODY : forall st, (if g_load (up_rng gA rA) && negb (match st with MacCookie => true | _ => false end) then send_reply C (up_rng gA rA, psA) m2 (Z.to_nat RESP_MAC) ipB portB
      else let g1 := up_hpc (up_rng gA rA) (u16 (g_hpc (up_rng gA rA) + 1)) in match find_wait psA (mr_receiver m2) 0 with None => ((g1, psA), []) | Some i => let p := nth i psA peer_zero in
          match consume_response C g1 (p_hs p) m2 with None => ((g1, psA), []) | Some h1 =>
             on_peer (g1, lset psA i (up_ep (up_hs p h1) ipB portB)) i (finish C (Z.of_nat i) (first_keepalive C (Z.of_nat i))) end end) =
      ((g1, lset (lset psA i p1) i p2), ENew (Z.of_nat i) rk sk (g_now gA) :: eA)).
    { intros st. change (g_load (up_rng gA rA)) with (g_load gA). rewrite r_la. cbn [andb]. cbv zeta. change (up_hpc (up_rng gA rA) (u16 (g_hpc (up_rng gA rA) + 1))) with g1.
      rewrite (find_wait_first psA (mr_receiver m2) 0 i); [|lia|exact W1|exact W2|exact (eq_sym M3)|]; [|intros k Hk (Y1 & Y2 & Y3); assert (k = i); [|lia]; apply (r_wait k); [lia|]; split; [exact Y1|]; split; [exact Y2|cbn [snd]; congruence]].
      rewrite Nat.add_0_l. fold hA. rewrite C1. unfold on_peer. cbn [fst snd]. fold p1. rewrite nth_lset_eq by lia. rewrite F1. reflexivity. }
    pose proof (M4 (g_chk (up_rng gA rA)) ipB portB (g_now (up_rng gA rA)) (gi_mac _ _ _ _ GA)) as NI. change (Z.to_nat RESP_MAC) with 93%nat in *. destruct (cookie_validate C _ m2 93 ipB portB _); [destruct (NI eq_refl)|exact (BODY MacValid)|exact (BODY MacCookie)]. }
  split; [cbn [snd]; rewrite nth_lset_eq by (rewrite lset_length; lia); exact F2|]. split; [exact F5|].
  (* the responder, ready for the data *)
  intros FN. subst dB'. cbn [fst snd].
  assert (W3' : peer_wf p3).
  { pose proof (pw_kps _ (nth_wf (gB, psB) j WB)) as WK. cbn [snd] in WK. pose proof (drop_next_wf _ WK) as DW. destruct (free_slot_spec _ DW) as (S3 & S4 & S5). constructor.
    - rewrite K1. cbv zeta. destruct DW. constructor; cbn [s_slots s_cur s_prev s_next]; rewrite ?lset_length; assumption.
    - destruct K2 as (_ & -> & _). apply (pw_arr _ (nth_wf (gB, psB) j WB)).
    - destruct K2 as (_ & _ & ->). apply (pw_cnt _ (nth_wf (gB, psB) j WB)). }
  destruct K2 as (K2 & _).
  pose proof (send_staged_good C (Z.of_nat j) g2 p3 W3') as G3. rewrite T1 in G3. destruct G3 as (G3 & _ & G3' & _). pose proof (keep_staged C (Z.of_nat j) g2 p3) as KP. rewrite T1 in KP.
  destruct G3 as (G31 & _ & _ & G34 & _). split; [congruence|].
  set (k1 := drop_next (p_kps (nth j psB peer_zero))) in *. exists (free_slot k1).
  pose proof (pw_kps _ (nth_wf (gB, psB) j WB)) as WK. cbn [snd] in WK. pose proof (drop_next_wf _ WK) as DW. fold k1 in DW. destruct (free_slot_spec _ DW) as (S3 & S4 & S5).
  destruct KP as (P1 & P2 & P3 & P4 & P5 & P6).
  assert (E1 : s_cur (p_kps p3) = s_cur k1) by (rewrite K1; reflexivity). assert (E2 : s_prev (p_kps p3) = s_prev k1) by (rewrite K1; reflexivity). assert (E3 : s_next (p_kps p3) = Some (free_slot k1)) by (rewrite K1; reflexivity).
  assert (NC : s_cur (p_kps p3) <> Some (free_slot k1)) by (rewrite E1; intros X; rewrite X in S4; cbn in S4; congruence).
  assert (SL : slot (p_kps p4) (free_slot k1) = mkKp sk (g_now gB) true rk (g_now gB) true 0 wgrx_init (u32 (rdle32 x)) (h_lidx hA) false).
  { rewrite (P6 _ NC), K1. unfold slot. cbn [s_slots]. apply nth_lset_eq. rewrite (kw_len _ DW). exact S3. }
  assert (LI : forall s, s <> free_slot k1 -> k_lidx (slot (p_kps p4) s) = k_lidx (slot k1 s)).
  { intros s N. rewrite P5, K1. unfold slot. cbn [s_slots]. rewrite nth_lset_ne by exact N. reflexivity. }
  assert (AJ : p_active (nth j psB peer_zero) = true) by (apply (pi_act _ _ _ _ _ _ _ _ Pj)).
  destruct (find_idx_none psB _ 0 j FN ltac:(lia) AJ) as (N1 & N2 & N3).
  constructor; cbn [fst snd]; rewrite ?T4.
  - congruence.
  - lia.
  - congruence.
  - intros k Hk HAk. rewrite T5 in * by lia. apply (find_idx_none psB _ 0 k FN); [lia|exact HAk].
  - rewrite P4, K1. cbn [s_slots]. rewrite lset_length, (kw_len _ DW). exact S3.
  - rewrite SL. cbn [k_rvalid k_rbirth k_rkey k_lidx]. repeat split.
  - rewrite SL. exact WInv_init.
  - right. rewrite P1, P2, P3, E1, E2, E3. split; [|split; [|split; [reflexivity|]]].
    + destruct (drop_next_ptr (p_kps (nth j psB peer_zero))) as (Y1 & _). fold k1 in Y1. rewrite <- N1, <- (drop_next_match _ (s_cur _) _ WK (or_introl eq_refl)). fold k1. rewrite <- Y1.
      unfold match_idx. destruct (s_cur k1) as [c|]; [|reflexivity]. rewrite LI by (cbn in S4; congruence). reflexivity.
    + destruct (drop_next_ptr (p_kps (nth j psB peer_zero))) as (_ & Y1). fold k1 in Y1. rewrite <- N2, <- (drop_next_match _ (s_prev _) _ WK (or_intror eq_refl)). fold k1. rewrite <- Y1.
      unfold match_idx. destruct (s_prev k1) as [c|]; [|reflexivity]. rewrite LI by (cbn in S5; congruence). reflexivity.
    + intros X. rewrite X in S5. cbn in S5. congruence.
Qed.

(** C72, first part.  B, receiving A's open initiation, answers; A, receiving the
    answer, completes the handshake; what one encrypts with the other decrypts
    with, and no packet is left waiting at A. *)
Theorem wg_handshake_agrees : forall a A b B psk ra rb opsA opsB i j tA m e x r E ipA portA ipB portB rA,
  ready a A b B psk ra rb opsA opsB i j tA m ->
  (* B's generator works: it yields a usable private key and a non-zero index *)
  c_pub C e = Some E -> u32 (rdle32 x) <> 0 ->
  let dA := fst (run C dev_init ((OKey a, ra) :: opsA)) in
  let dB := fst (run C dev_init ((OKey b, rb) :: opsB)) in
  exists answer kAB kBA restB restA dA',
    snd (step C dB (ORecv m ipA portA) (e :: x :: r)) =
      EHello (Z.of_nat j) (timestamp tA) (g_now (fst dB)) :: EUdp ipA portA answer :: ENew (Z.of_nat j) kBA kAB (g_now (fst dB)) :: restB /\
    step C dA (ORecv answer ipB portB) rA = (dA', ENew (Z.of_nat i) kAB kBA (g_now (fst dA)) :: restA) /\
    waiting (nth i (snd dA') peer_zero) = [].
Proof.
  intros a A b B psk ra rb opsA opsB i j tA m e x r E ipA portA ipB portB rA R HE HX dA dB.
  destruct (exchange a A b B psk ra rb opsA opsB i j tA m e x r E ipA portA ipB portB rA R HE HX) as (m2 & kAB & kBA & dB' & eB & dA' & eA & S1 & S2 & S3 & _).
  exists m2, kAB, kBA, eB, eA, dA'. fold dA dB in S1, S2. rewrite S1. split; [reflexivity|]. split; [exact S2|exact S3].
Qed.

(** C72, second part.  Every datagram A then sends - the packets that waited, or
    one empty message - is accepted by B once, in whatever order and however often
    it arrives, and what B decrypts is the packet, which enters B's stack if its
    source address belongs to A ([hears]). *)
Theorem wg_exchange_delivers : forall a A b B psk ra rb opsA opsB i j tA m e x r E ipA portA ipB portB rA,
  ready a A b B psk ra rb opsA opsB i j tA m ->
  c_pub C e = Some E -> u32 (rdle32 x) <> 0 ->
  let dA := fst (run C dev_init ((OKey a, ra) :: opsA)) in
  let dB := fst (run C dev_init ((OKey b, rb) :: opsB)) in
  (* the index B draws is not one of B's current sessions *)
  find_idx (snd dB) (u32 (rdle32 x)) 0 = None ->
  let dB' := fst (step C dB (ORecv m ipA portA) (e :: x :: r)) in
  let answer := hd [] (udps (snd (step C dB (ORecv m ipA portA) (e :: x :: r)))) in
  let datagrams := udps (snd (step C dA (ORecv answer ipB portB) rA)) in
  let packets := flushed (waiting (nth i (snd dA) peer_zero)) in
  length datagrams = length packets /\
  exists k, forall arrivals : list (nat * (Z * Z)), Forall (fun v => (fst v < length packets)%nat) arrivals ->
    snd (run C dB' (map (fun v => (ORecv (nth (fst v) datagrams []) (fst (snd v)) (snd (snd v)), [])) arrivals)) =
    hears (Z.of_nat j) k (g_now (fst dB)) (g_aips (fst dB)) packets [] (map fst arrivals).
Proof.
  intros a A b B psk ra rb opsA opsB i j tA m e x r E ipA portA ipB portB rA R HE HX dA dB FN.
  destruct (exchange a A b B psk ra rb opsA opsB i j tA m e x r E ipA portA ipB portB rA R HE HX) as (m2 & kAB & kBA & dB' & eB & dA' & eA & S1 & S2 & _ & S4 & S5).
  destruct (S5 FN) as (EG & s & RV). fold dA dB in S1, S2, S4, RV, EG. cbv zeta. rewrite S1. cbn [fst snd udps flat_map app hd]. rewrite S2. cbn [snd].
  change (udps (ENew (Z.of_nat i) kAB kBA (g_now (fst dA)) :: eA)) with (udps eA). rewrite S4. clear S1 S2 S4.
  pose proof (qok_nth dA i (qok_run C Henc _ (rd_ha _ _ _ _ _ _ _ _ _ _ _ _ _ R))) as QP.
  set (packets := flushed (waiting (nth i (snd dA) peer_zero))).
  assert (PL : (length packets <= 1000)%nat /\ Forall (fun q => zlen q <= 1536) packets).
  { destruct QP as [Q1 Q2 Q3]. unfold packets, flushed, waiting. assert (F : Forall (fun q => zlen q <= 1536) (firstn (Z.to_nat (p_cnt (nth i (snd dA) peer_zero))) (p_arr (nth i (snd dA) peer_zero)))).
    { rewrite Forall_forall in Q3 |- *. intros q Hq. apply Q3. rewrite <- (firstn_skipn (Z.to_nat (p_cnt (nth i (snd dA) peer_zero)))). apply in_or_app. left. exact Hq. }
    assert (L : (length (firstn (Z.to_nat (p_cnt (nth i (snd dA) peer_zero))) (p_arr (nth i (snd dA) peer_zero))) <= 16)%nat) by (rewrite firstn_length; lia).
    destruct (firstn _ _) as [|w l]; [split; [cbn; lia|repeat constructor; cbn; lia]|]. split; [rewrite map_length; lia|]. apply Forall_forall. intros q Hq. apply in_map_iff in Hq. destruct Hq as (y & <- & Hy).
    rewrite Forall_forall in F. specialize (F y Hy). unfold pad. assert (X : zlen (y ++ zbytes (Z.to_nat (pad_len (zlen y) - zlen y))) = pad_len (zlen y)).
    { unfold zlen at 1. rewrite app_length. unfold zbytes. rewrite repeat_length. pose proof (pad_len_ge (zlen y) ltac:(unfold zlen; lia)). unfold zlen in *. lia. }
    rewrite X. apply pad_len_1536. unfold zlen in *. lia. }
  destruct PL as (PL1 & PL2). clearbody packets. split; [apply wires_length|]. exists kAB. intros arr HA.
  assert (RU : 0 <= u32 (rdle32 x) < 2 ^ 32) by (apply Z.mod_pos_bound; lia).
  rewrite <- (run_hears packets kAB (u32 (rdle32 x)) j s (g_now (fst dB)) (g_aips (fst dB)) RU PL1 PL2 arr [] dB' HA ltac:(constructor) EG RV). f_equal. f_equal.
  apply map_ext_in. intros v Hv. rewrite Forall_forall in HA. rewrite wires_nth by (apply HA, Hv). rewrite Z.add_0_l. reflexivity.
Qed.
End Agree.
Print Assumptions wg_handshake_agrees.
Print Assumptions wg_exchange_delivers.

(** The hypotheses are met: A has one packet waiting; B has just been set up. *)
Lemma toy_ready : ready toy keyA pubA keyB pubB toy_psk [] [] (tl opsA1) (tl setupB) 0 0 1000 mInit.
Proof.
  assert (HA : (OKey keyA, []) :: tl opsA1 = opsA1) by reflexivity. assert (HB : (OKey keyB, []) :: tl setupB = setupB) by reflexivity.
  constructor; rewrite ?HA, ?HB; try (vm_compute; reflexivity); try lia.
  - repeat constructor.
  - repeat constructor.
  - apply hist_okb_ok. vm_compute. reflexivity.
  - apply hist_okb_ok. vm_compute. reflexivity.
  - intros k Hk. do 8 (destruct k as [|k]; [vm_compute; split; [intros (X1 & X2 & X3); congruence || reflexivity|intros X; congruence || (repeat split)]|]). lia.
Qed.
Example exchange_toy :
  ready toy keyA pubA keyB pubB toy_psk [] [] (tl opsA1) (tl setupB) 0 0 1000 mInit /\
  c_pub toy (repeat 44 32) <> None /\ u32 (rdle32 (idx_block 6)) <> 0 /\
  find_idx (snd (fst (run toy dev_init setupB))) (u32 (rdle32 (idx_block 6))) 0 = None /\
  flushed (waiting (nth 0 (snd (fst (run toy dev_init opsA1))) peer_zero)) = [pad toy_pkt] /\
  hears 0 (repeat 1 32) 1000 (g_aips (fst (fst (run toy dev_init setupB)))) [pad toy_pkt] [] [0%nat; 0%nat] =
    [EAcc 0 (repeat 1 32) 0 (pad toy_pkt) 1000; EInj 0 (pad toy_pkt)].
Proof. split; [exact toy_ready|]. split; [discriminate|]. split; [vm_compute; discriminate|]. repeat split; vm_compute; reflexivity. Qed.
