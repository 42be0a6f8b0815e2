(** C32: TFTP transfers reproduce the file (client side). *)
From Verif Require Import Base ListUtil HttpUrl TftpCodec TftpCodecSpec TftpCodecProofs TftpCodecProps Tftp TftpSpec TftpClient.
Local Ltac Zify.zify_post_hook ::= Z.to_euclidean_division_equations.

(** C32: whatever the network does (loss, duplication, reordering, foreign packets, any
    timing) and whatever the callbacks answer: at any time the sink holds the first
    blocks of the file, written in order without gap or overlap; when the transfer
    reports success it holds exactly the file, all of it has been hashed and the verify
    callback has accepted its length. *)
Theorem tftp_client_reproduces : forall F b c w server name c0 w0 l c' w',
  0 < b <= 65464 -> client_start c w server name = Some (0, c0, w0) -> session F b c0 (l, []) c' w' ->
  stored (snd w') = Some (firstn (Z.to_nat (nblocks (snd w') * b)) F) /\
  (k_state c' = CComplete -> stored (snd w') = Some F /\ (has_hash (k_ops c') = true -> hashed (snd w') = F) /\
    (has_verify (k_ops c') = true -> exists h, In (EVerify h (zlen F) 0) (snd w'))).
Proof.
  intros F b c w server name c0 w0 l c' w' Hb HS S. destruct (start_inv F b _ _ _ _ _ _ _ HS eq_refl) as (_ & I). destruct (session_inv F b c0 (l, []) c' w' Hb I S) as (A & _ & C).
  split; [exact A|exact C].
Qed.
Print Assumptions tftp_client_reproduces.

(** ** Progress *)
Definition granted (w : world) : Prop := Forall (fun a => a_rc a = 0) (fst w).
Lemma granted_call w ev a w' : call w ev = (a, w') -> granted w -> a_rc a = 0 /\ granted w'.
Proof. intros H G. exact (call_rcs (fun a => a_rc a = 0) w ev a w' H eq_refl G). Qed.
Lemma granted_send o w l r p t : has_send o = true -> zlen p <> 0 -> granted w -> exists w', tftp_send o w l r p t = (0, w') /\ granted w' /\ snd w' = ESend l r p 0 t :: snd w.
Proof.
  intros HS HP G. unfold tftp_send. rewrite HS. destruct (Z.eqb_spec (zlen p) 0); [contradiction|]. cbn. destruct (call w _) as [a w'] eqn:E. destruct (granted_call _ _ _ _ E G) as (R & G'). apply call_inv in E. rewrite R in *. eauto.
Qed.
Lemma granted_finish c w st c' w' : client_finish c w st = (c', w') -> granted w -> granted w'.
Proof.
  unfold client_finish. intros [= _ <-] G. destruct (has_close (k_ops c) && negb (k_handle c =? 0)); [|exact G]. destruct (call w (fun _ => EClose (k_handle c) st)) as [a w1] eqn:E. exact (proj2 (granted_call _ _ _ _ E G)).
Qed.
Definition able (o : ops) : Prop := has_send o = true /\ has_open o = true /\ has_write o = true.
Lemma accept_data_ok c w data : k_state c = CRecvData -> granted w -> able (k_ops c) ->
  (u32 (4294967295 - zlen data) <? k_total c) || (negb (c_maximg (k_cfg c) =? 0) && (u32 (c_maximg (k_cfg c) - k_total c) <? zlen data)) = false ->
  exists c' w', accept_data c w (k_expected c) data = Some (0, c', w') /\ granted w' /\ nblocks (snd w') = nblocks (snd w) + 1 /\
    k_ops c' = k_ops c /\ k_cfg c' = k_cfg c /\ k_state c' = (if zlen data <? n_blksize (k_neg c) then CComplete else CRecvData) /\
    (zlen data <? n_blksize (k_neg c) = false -> k_neg c' = k_neg c /\ k_server c' = k_server c /\ k_locked c' = k_locked c).
Proof.
  intros HS G (A1 & A2 & A3) Gd. unfold accept_data. cbv beta zeta. rewrite Z.eqb_refl, Gd.
  assert (O : exists h w1, (if k_handle c =? 0 then let '(r, h, w) := open_sink c w in (r, set_handle c h, w) else (0, c, w)) = (0, set_handle c h, w1) /\ granted w1 /\ nblocks (snd w1) = nblocks (snd w)).
  { destruct (k_handle c =? 0) eqn:E0; [|exists (k_handle c), w; split; [destruct c; reflexivity|auto]]. unfold open_sink. rewrite A2, A3. cbn [negb orb]. destruct (call w _) as [a w1] eqn:E. destruct (granted_call _ _ _ _ E G) as (R & G1). apply call_inv in E. rewrite R in *.
    exists (a_handle a), w1. rewrite E. auto. }
  destruct O as (h & w1 & EO & G1 & N1). rewrite EO. cbn [negb]. change (negb (0 =? 0)) with false. cbv iota. cbn [set_handle k_handle k_off k_total k_server k_cfg k_neg k_last k_adv k_deadline k_expected k_acked k_wcount k_retries k_status k_state k_req k_final k_locked k_name].
  destruct (call w1 _) as [a w2] eqn:E. destruct (granted_call _ _ _ _ E G1) as (R & G2). apply call_inv in E. rewrite R in *. change (negb (0 =? 0)) with false. cbv iota.
  assert (N2 : nblocks (snd w2) = nblocks (snd w) + 1) by (rewrite E; unfold nblocks in *; cbn [filter is_block]; change (0 =? 0) with true; cbv iota; rewrite zlen_cons; lia).
  assert (Hh : exists w3, (if has_hash (k_ops c) && (0 <? zlen data) then let '(a, w) := call w2 (fun a => EHash h data (a_rc a)) in (a_rc a, w) else (0, w2)) = (0, w3) /\ granted w3 /\ nblocks (snd w3) = nblocks (snd w2)).
  { destruct (has_hash (k_ops c) && (0 <? zlen data)); [|exists w2; auto]. destruct (call w2 _) as [a3 w3] eqn:E3. destruct (granted_call _ _ _ _ E3 G2) as (R3 & G3). apply call_inv in E3. exists w3. rewrite R3, E3. auto. }
  destruct Hh as (w3 & EH & G3 & N3). rewrite EH. change (negb (0 =? 0)) with false. cbv iota.
  (* the end *)
  assert (AE : forall cc w4, granted w4 -> k_ops cc = k_ops c -> k_cfg cc = k_cfg c -> k_neg cc = k_neg c -> k_server cc = k_server c -> k_locked cc = k_locked c -> k_final cc = (zlen data <? n_blksize (k_neg c)) -> nblocks (snd w4) = nblocks (snd w) + 1 ->
    exists c' w', accept_end cc w4 = Some (0, c', w') /\ granted w' /\ nblocks (snd w') = nblocks (snd w) + 1 /\ k_ops c' = k_ops c /\ k_cfg c' = k_cfg c /\ k_state c' = (if zlen data <? n_blksize (k_neg c) then CComplete else CRecvData) /\
    (zlen data <? n_blksize (k_neg c) = false -> k_neg c' = k_neg c /\ k_server c' = k_server c /\ k_locked c' = k_locked c)).
  { intros cc w4 G4 Q1 Q2 Q3 Q4 Q5 Q6 N4. unfold accept_end. rewrite Q6. destruct (zlen data <? n_blksize (k_neg c)).
    - assert (V : exists w5, (if has_verify (k_ops cc) then let '(a, w) := call w4 (fun a => EVerify (k_handle cc) (k_total cc) (a_rc a)) in (a_rc a, w) else (0, w4)) = (0, w5) /\ granted w5 /\ nblocks (snd w5) = nblocks (snd w4)).
      { destruct (has_verify (k_ops cc)); [|exists w4; auto]. destruct (call w4 _) as [a5 w5] eqn:E5. destruct (granted_call _ _ _ _ E5 G4) as (R5 & G5). apply call_inv in E5. exists w5. rewrite R5, E5. auto. }
      destruct V as (w5 & EV & G5 & N5). rewrite EV. change (negb (0 =? 0)) with false. cbv iota. destruct (client_finish cc w5 0) as [c6 w6] eqn:E6. eexists _, _. split; [reflexivity|]. split; [eapply granted_finish; eassumption|].
      apply finish_spec in E6. destruct E6 as (S6 & T6 & K6 & O6 & _). split; [rewrite (proj1 (proj2 (silent_spec _ _ S6))); lia|]. split; [congruence|]. split; [congruence|]. split; [exact T6|discriminate].
    - eexists _, _. split; [reflexivity|]. cbn. auto 10. }
  match goal with |- context [if ?g then _ else _] => destruct g end; [|apply AE; try reflexivity; [exact G3|lia]].
  match goal with |- context [tftp_send ?o ?w ?l ?r ?p ?t] => destruct (granted_send o w l r p t A1 ltac:(discriminate) G3) as (w4 & E4 & G4 & N4) end. rewrite E4. change (negb (0 =? 0)) with false. cbv iota.
  apply AE; try reflexivity; [exact G4|rewrite N4; unfold nblocks in *; cbn; lia].
Qed.

(** Packets delivered one after the other. *)
Fixpoint feed (c : client) (w : world) (local : Z) (remote : endpoint) (pkts : list (list Z)) : option (client * world) :=
  match pkts with [] => Some (c, w) | p :: r => do (_, c, w) <- client_receive c w local remote p; feed c w local remote r end.
(** DATA packets [n+1 .. n+k]. *)
Fixpoint blocks (F : list Z) (b n : Z) (k : nat) : list (list Z) :=
  match k with O => [] | S k => data_pkt ((n + 1) mod 65536) (chunk F b (n + 1)) :: blocks F b (n + 1) k end.

Lemma receive_next F b c w local remote : 0 < b <= 65464 -> cinv F b c (snd w) -> active c -> granted w -> able (k_ops c) -> from_server c local remote -> believed c = b ->
  zlen F < 4294967296 -> (c_maximg (k_cfg c) = 0 \/ zlen F <= c_maximg (k_cfg c) < 4294967296) ->
  let n := nblocks (snd w) in
  exists c' w', client_receive c w local remote (data_pkt ((n + 1) mod 65536) (chunk F b (n + 1))) = Some (0, c', w') /\ cinv F b c' (snd w') /\ granted w' /\ k_ops c' = k_ops c /\ k_cfg c' = k_cfg c /\ nblocks (snd w') = n + 1 /\
    (zlen F < (n + 1) * b -> k_state c' = CComplete) /\ ((n + 1) * b <= zlen F -> active c' /\ from_server c' local remote /\ believed c' = b).
Proof.
  intros Hb I HA G AB FS BL HF HM n. assert (Hn : 0 <= n) by apply nblocks_nonneg. pose proof I as (I1 & I2 & I3). destruct (I2 HA) as (J1 & J2 & J3 & J4 & J5).
  set (p := data_pkt ((n + 1) mod 65536) (chunk F b (n + 1))). assert (LC : zlen (chunk F b (n + 1)) = Z.max 0 (Z.min b (zlen F - n * b))) by (rewrite chunk_len by lia; f_equal; f_equal; lia).
  assert (PD : parse_data p = Some (Some ((n + 1) mod 65536, chunk F b (n + 1)))) by (apply parse_data_pkt; lia).
  assert (PO : packet_opcode p = Some 3) by (unfold packet_opcode, p, data_pkt; rewrite zlen_app; pose proof (zlen_nonneg (chunk F b (n + 1))); change (zlen [0; 3; (n + 1) mod 65536 / 256; ((n + 1) mod 65536) mod 256]) with 4; destruct (Z.ltb_spec (4 + zlen (chunk F b (n + 1))) 2); [lia|]; cbn [app]; rewrite read_u16_cons; reflexivity).
  destruct FS as (F1 & F2 & F3). set (server := (fst (k_server c), snd remote)).
  set (cx := mkC (k_ops c) (k_cfg c) (if match k_state c with CWaitFirst => true | _ => false end then neg_defaults (k_cfg c) else k_neg c) server (k_handle c) (k_last c) (k_off c) (k_total c) (if match k_state c with CWaitFirst => true | _ => false end then 0 else k_adv c) 0
                       (k_expected c) (k_acked c) (k_wcount c) 0 (k_status c) CRecvData (k_req c) (k_final c) true (k_name c)).
  assert (ER : client_receive c w local remote p = accept_data cx w ((n + 1) mod 65536) (chunk F b (n + 1))).
  { unfold client_receive, cx. cbv beta zeta. rewrite F1, Z.eqb_refl, F2, Z.eqb_refl. cbn [negb]. replace (k_locked c && negb (snd remote =? snd (k_server c))) with false by (destruct (k_locked c); [rewrite (F3 eq_refl), Z.eqb_refl|]; reflexivity).
    rewrite PO, PD. cbn [obind]. change (3 =? OP_OACK) with false. change (3 =? OP_ERROR) with false. change (negb (3 =? OP_DATA)) with false. cbv iota. destruct (k_state c) eqn:ST; try (destruct HA; congruence); reflexivity. }
  assert (PRE : zlen (firstn (Z.to_nat (n * b)) F) = Z.min (n * b) (zlen F)) by (apply pre_len; lia).
  assert (Eb : n_blksize (k_neg cx) = b) by (unfold cx, believed in *; cbn [k_neg]; destruct (k_state c); exact BL).
  assert (I' : cinv F b cx (snd w)) by (eapply cinv_silent; [apply silent_refl|exact I|reflexivity|cbn; auto|cbn; discriminate]).
  destruct (accept_data_ok cx w (chunk F b (n + 1))) as (c' & w' & E & G' & N' & O' & C' & S' & R'); [reflexivity|exact G|exact AB| |].
  { cbn [cx k_total k_cfg]. rewrite J2. fold n. rewrite PRE, LC. assert (0 <= n * b) by nia. clear - HF HM Hb H Hn. set (q := n * b) in *. clearbody q. pose proof (zlen_nonneg F). apply orb_false_iff. split; [apply Z.ltb_ge; unfold u32; rewrite Z.mod_small by lia; lia|]. apply andb_false_iff. destruct HM as [->|HM]; [left; reflexivity|right]. apply Z.ltb_ge. unfold u32. rewrite Z.mod_small by lia. lia. }
  cbn [cx k_expected k_ops k_cfg k_neg k_server k_locked] in *. rewrite J3 in E. fold n in E, N'.
  exists c', w'. rewrite ER. split; [exact E|]. split.
  { eapply accept_data_inv; [| | | |exact E]; [lia|exact I'|reflexivity|]. intros _. split; [reflexivity|]. apply Z.eq_le_incl. exact Eb. }
  split; [exact G'|]. split; [exact O'|]. split; [exact C'|]. split; [exact N'|]. rewrite Eb in S', R'. split.
  - intros Lt. destruct (Z.ltb_spec (zlen (chunk F b (n + 1))) b); [exact S'|]. exfalso. nia.
  - intros Ge. destruct (Z.ltb_spec (zlen (chunk F b (n + 1))) b); [exfalso; nia|]. destruct (R' eq_refl) as (R1 & R2 & R3). split; [right; exact S'|]. split; [split; [congruence|]; split; [rewrite R2; exact F2|rewrite R2; intros _; reflexivity]|]. unfold believed. rewrite S', R1. exact Eb.
Qed.

(** C32, progress: from any point of a transfer, if the sender uses the block size the
    client expects, the file is within the limits and the callbacks succeed, then
    delivering the missing blocks in order completes the transfer, and the sink holds
    the file. *)
Theorem tftp_client_completes : forall F b c w server name c0 w0 l c1 w1 local remote k,
  0 < b <= 65464 -> client_start c w server name = Some (0, c0, w0) -> session F b c0 (l, []) c1 w1 ->
  active c1 -> believed c1 = b -> from_server c1 local remote -> able (k_ops c1) -> granted w1 ->
  zlen F < 4294967296 -> (c_maximg (k_cfg c1) = 0 \/ zlen F <= c_maximg (k_cfg c1) < 4294967296) ->
  let n := nblocks (snd w1) in
  Z.of_nat k = Z.max (n + 1) (zlen F / b + 1) - n ->
  exists c' w', feed c1 w1 local remote (blocks F b n k) = Some (c', w') /\ k_state c' = CComplete /\ stored (snd w') = Some F.
Proof.
  intros F b c w server name c0 w0 l c1 w1 local remote k Hb HS S HA BL FS AB G HF HM n Hk. destruct (start_inv F b _ _ _ _ _ _ _ HS eq_refl) as (_ & I0).
  pose proof (session_inv F b c0 (l, []) c1 w1 Hb I0 S) as I. clear HS S I0. subst n. revert c1 w1 HA BL FS AB G HM Hk I. induction k as [|k IH]; intros c1 w1 HA BL FS AB G HM Hk I.
  { exfalso. lia. }
  set (n := nblocks (snd w1)) in *. assert (Hn : 0 <= n) by apply nblocks_nonneg. destruct (receive_next F b c1 w1 local remote Hb I HA G AB FS BL HF HM) as (c2 & w2 & E & I2 & G2 & O2 & C2 & N2 & D1 & D2).
  fold n in E, N2, D1, D2. cbn [blocks feed]. rewrite E. cbn [obind]. destruct (Z_lt_le_dec (zlen F) ((n + 1) * b)) as [Lt|Ge].
  - assert (k = 0)%nat as -> by (assert (zlen F / b < n + 1) by (apply Z.div_lt_upper_bound; lia); lia). cbn [blocks feed]. exists c2, w2. split; [reflexivity|]. split; [exact (D1 Lt)|]. exact (proj1 (proj2 (proj2 I2) (D1 Lt))).
  - destruct (D2 Ge) as (A2 & F2 & B2). assert (n + 1 <= zlen F / b) by (apply Z.div_le_lower_bound; lia). rewrite <- N2. apply IH; try assumption; [rewrite O2; exact AB|rewrite C2; exact HM|rewrite N2; lia].
Qed.
Print Assumptions tftp_client_completes.
