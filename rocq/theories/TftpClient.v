(** The client against any honest sender. *)
From Verif Require Import Base ListUtil HttpUrl TftpCodec TftpCodecSpec TftpCodecProofs TftpCodecProps Tftp TftpSpec.
Local Ltac Zify.zify_post_hook ::= Z.to_euclidean_division_equations.

Ltac inv1 H := lazymatch type of H with
  | obind ?e _ = Some _ => let E := fresh "E" in destruct e eqn:E; cbn [obind] in H; [|discriminate H]
  | (if ?b then _ else _) = _ => let E := fresh "E" in destruct b eqn:E
  | match ?x with _ => _ end = _ => let E := fresh "E" in destruct x eqn:E; try discriminate H
  | Some _ = Some _ => first [discriminate H | injection H; clear H; intros; subst]
  | (_, _) = (_, _) => injection H; clear H; intros; subst
  end.
Ltac inv H := repeat (inv1 H).

(** ** Files and chunks *)
Lemma chunk_step F b n : 0 < b -> 0 <= n -> firstn (Z.to_nat (n * b)) F ++ chunk F b (n + 1) = firstn (Z.to_nat ((n + 1) * b)) F.
Proof.
  intros Hb Hn. unfold chunk. replace (n + 1 - 1) with n by lia. replace (Z.to_nat ((n + 1) * b)) with (Z.to_nat (n * b) + Z.to_nat b)%nat by nia.
  set (k := Z.to_nat (n * b)). set (m := Z.to_nat b). clearbody k m. clear. revert F. induction k as [|k IH]; intros F; [reflexivity|].
  destruct F as [|x F]; [destruct m; reflexivity|]. cbn [firstn skipn app plus]. f_equal. apply IH.
Qed.
Lemma chunk_len F b i : 0 < b -> 1 <= i -> zlen (chunk F b i) = Z.max 0 (Z.min b (zlen F - (i - 1) * b)).
Proof. intros Hb Hi. unfold chunk, zlen. rewrite firstn_length, skipn_length. nia. Qed.
Lemma chunk_short F b n : 0 < b -> 0 <= n -> zlen (chunk F b (n + 1)) < b -> firstn (Z.to_nat ((n + 1) * b)) F = F.
Proof. intros Hb Hn. rewrite chunk_len by lia. intros H. apply firstn_all2. unfold zlen in *. nia. Qed.
Lemma pre_len (F : list Z) b n : 0 < b -> 0 <= n -> zlen (firstn (Z.to_nat (n * b)) F) = Z.min (n * b) (zlen F).
Proof. intros. unfold zlen. rewrite firstn_length. nia. Qed.

(** ** Logs *)
Lemma call_inv w ev a w' : call w ev = (a, w') -> snd w' = ev a :: snd w.
Proof. unfold call. destruct (pull w) as [a0 r]. intros [= <- <-]. reflexivity. Qed.
Lemma call_rcs (P : ans -> Prop) w ev a w' : call w ev = (a, w') -> P ans0 -> Forall P (fst w) -> P a /\ Forall P (fst w').
Proof. unfold call, pull. destruct w as [[|a0 l] log]; cbn; intros [= <- <-] H0 HF; [split; [assumption|constructor]|]. inversion HF; subst. split; assumption. Qed.
(** A log with events added that store nothing, hash nothing. *)
Definition quiet (e : event) : Prop := match e with EWrite _ _ _ rc => rc <> 0 | EHash _ _ _ => False | _ => True end.
Definition silent (log log' : list event) : Prop := exists l, log' = l ++ log /\ Forall quiet l.
Lemma silent_refl l : silent l l.
Proof. exists []. split; [reflexivity|constructor]. Qed.
Lemma silent_trans a b c : silent a b -> silent b c -> silent a c.
Proof. intros (l & -> & A) (m & -> & B). exists (m ++ l). split; [apply app_assoc|apply Forall_app; auto]. Qed.
Lemma silent_call w ev a w' : call w ev = (a, w') -> quiet (ev a) -> silent (snd w) (snd w').
Proof. intros H Q. apply call_inv in H. exists [ev a]. split; [exact H|constructor; [exact Q|constructor]]. Qed.
Lemma quiet_app l log : Forall quiet l -> stored (l ++ log) = stored log /\ nblocks (l ++ log) = nblocks log /\ hashed (l ++ log) = hashed log.
Proof.
  induction 1 as [|e l Q _ (A & B & C)]; [auto|]. cbn [app]. unfold nblocks in *. destruct e; cbn [stored hashed filter is_block quiet] in *; try tauto.
  destruct (Z.eqb_spec rc 0); [contradiction|]. auto.
Qed.
Lemma silent_spec a b : silent a b -> stored b = stored a /\ nblocks b = nblocks a /\ hashed b = hashed a.
Proof. intros (l & -> & Q). apply quiet_app. exact Q. Qed.
Lemma silent_in a b e : silent a b -> In e a -> In e b.
Proof. intros (l & -> & _) I. apply in_or_app. auto. Qed.
Lemma nblocks_nonneg l : 0 <= nblocks l.
Proof. apply zlen_nonneg. Qed.
Lemma send_silent o w l r p t rc w' : tftp_send o w l r p t = (rc, w') -> silent (snd w) (snd w').
Proof. unfold tftp_send. intros H. inv H; [apply silent_refl|]. eapply silent_call; [eassumption|exact I]. Qed.
Lemma error_silent o w l r c m rc w' : send_error o w l r c m = (rc, w') -> silent (snd w) (snd w').
Proof. unfold send_error. intros H. inv H; [eapply send_silent; eassumption|apply silent_refl]. Qed.
Lemma finish_spec c w st c' w' : client_finish c w st = (c', w') ->
  silent (snd w) (snd w') /\ k_state c' = (if st =? 0 then CComplete else CError) /\ k_cfg c' = k_cfg c /\ k_ops c' = k_ops c /\ (st = 0 -> has_close (k_ops c) = true -> k_handle c <> 0 -> hd_error (snd w') = Some (EClose (k_handle c) 0)).
Proof.
  unfold client_finish. intros [= <- <-]. cbn. split; [|split; [reflexivity|split; [reflexivity|split; [reflexivity|]]]].
  - destruct (has_close (k_ops c) && negb (k_handle c =? 0)); [|apply silent_refl]. destruct (call w (fun _ => EClose (k_handle c) st)) eqn:E. eapply silent_call; [exact E|exact I].
  - intros -> HC HH. rewrite HC. destruct (Z.eqb_spec (k_handle c) 0); [contradiction|]. cbn. destruct (call w (fun _ => EClose (k_handle c) 0)) eqn:E. apply call_inv in E. cbn. rewrite E. reflexivity.
Qed.

(** ** The invariant *)
Definition done (F : list Z) (o : ops) (log : list event) : Prop :=
  stored log = Some F /\ (has_hash o = true -> hashed log = F) /\ (has_verify o = true -> exists h, In (EVerify h (zlen F) 0) log).
Definition cinv (F : list Z) (b : Z) (c : client) (log : list event) : Prop :=
  let n := nblocks log in let s := firstn (Z.to_nat (n * b)) F in
  stored log = Some s /\
  (active c -> k_off c = zlen s /\ k_total c = zlen s /\ k_expected c = (n + 1) mod 65536 /\ (has_hash (k_ops c) = true -> hashed log = s) /\ zlen s < 4294967296) /\
  (k_state c = CComplete -> done F (k_ops c) log).
Lemma cinv_silent F b c c' log log' : silent log log' -> cinv F b c log -> k_ops c' = k_ops c ->
  (active c' -> active c /\ k_off c' = k_off c /\ k_total c' = k_total c /\ k_expected c' = k_expected c) -> (k_state c' = CComplete -> k_state c = CComplete) -> cinv F b c' log'.
Proof.
  intros S (A & B & C) O HA HC. destruct (silent_spec _ _ S) as (S1 & S2 & S3). unfold cinv. rewrite S1, S2. split; [exact A|]. rewrite S3, O. split.
  - intros X. destruct (HA X) as (Y & -> & -> & ->). exact (B Y).
  - intros X. destruct (C (HC X)) as (D & E & G). unfold done. rewrite S1, S3. split; [exact D|]. split; [exact E|]. intros V. destruct (G V) as (h & I). exists h. eapply silent_in; eassumption.
Qed.

(** Storing the next block. *)
Lemma store_block F b c log dl h d : 0 < b -> cinv F b c log -> active c -> d = chunk F b (nblocks log + 1) -> dl = zlen d ->
  let log' := EWrite h (k_off c) d 0 :: log in
  stored log' = Some (firstn (Z.to_nat (nblocks log' * b)) F) /\ nblocks log' = nblocks log + 1 /\ zlen (firstn (Z.to_nat (nblocks log' * b)) F) = k_total c + dl /\ hashed log' = hashed log.
Proof.
  intros Hb (A & B & _) HA -> ->. destruct (B HA) as (B1 & B2 & B3 & B4 & B5). intros log'.
  assert (N : nblocks log' = nblocks log + 1) by (unfold nblocks, log'; cbn [filter is_block]; change (0 =? 0) with true; cbv iota; rewrite zlen_cons; lia).
  assert (0 <= nblocks log) by apply nblocks_nonneg. rewrite N, <- chunk_step by lia. split; [|split; [reflexivity|split]].
  - unfold log'. cbn [stored]. change (0 =? 0) with true. cbv iota. rewrite A. cbn [obind]. rewrite B1, Z.eqb_refl. reflexivity.
  - rewrite zlen_app, B2. reflexivity.
  - reflexivity.
Qed.
Lemma u16_eq v : u16 v = v mod 65536.
Proof. reflexivity. Qed.
Lemma cinv_fail F b c' log log' : silent log log' -> stored log = Some (firstn (Z.to_nat (nblocks log * b)) F) -> k_state c' = CError -> cinv F b c' log'.
Proof.
  intros S A E. destruct (silent_spec _ _ S) as (S1 & S2 & S3). unfold cinv. rewrite S1, S2. split; [exact A|]. split; [intros [X|X]; congruence|congruence].
Qed.
Lemma accept_end_inv F b c w r c' w' : 0 < b -> cinv F b c (snd w) -> k_state c = CRecvData -> (k_final c = true -> firstn (Z.to_nat (nblocks (snd w) * b)) F = F) ->
  accept_end c w = Some (r, c', w') -> cinv F b c' (snd w').
Proof.
  intros Hb I HS HF. pose proof I as (A & B & C). destruct (B (or_intror HS)) as (B1 & B2 & B3 & B4 & B5). unfold accept_end. intros H. destruct (k_final c) eqn:Fi.
  2:{ inv H. eapply cinv_silent; [apply silent_refl|exact I|reflexivity| |cbn; discriminate]. cbn. intros _. split; [right; exact HS|auto]. }
  specialize (HF eq_refl).
  match type of H with (let '(_, _) := ?e in _) = _ => destruct e as [rv w1] eqn:EV end.
  assert (V : silent (snd w) (snd w1) /\ (rv = 0 -> has_verify (k_ops c) = true -> In (EVerify (k_handle c) (zlen F) 0) (snd w1))).
  { destruct (has_verify (k_ops c)); [|injection EV as <- <-; split; [apply silent_refl|discriminate]]. destruct (call w (fun a => EVerify (k_handle c) (k_total c) (a_rc a))) as [a w1'] eqn:E. injection EV as <- <-.
    split; [eapply silent_call; [exact E|exact Logic.I]|]. intros R _. apply call_inv in E. rewrite E, R, B2, HF. left. reflexivity. }
  destruct V as (SV & VV). destruct (negb (rv =? 0)) eqn:R.
  - destruct (client_finish c w1 ERR_VERIFY) as [c2 w2] eqn:EF. inv H. apply finish_spec in EF. destruct EF as (SF & ST & _). eapply cinv_fail; [exact (silent_trans _ _ _ SV SF)|exact A|exact ST].
  - destruct (Z.eqb_spec rv 0) as [->|]; [|discriminate R]. destruct (client_finish c w1 0) as [c2 w2] eqn:EF. inv H. apply finish_spec in EF. destruct EF as (SF & ST & _ & EO & _). pose proof (silent_trans _ _ _ SV SF) as S.
    destruct (silent_spec _ _ S) as (S1 & S2 & S3). unfold cinv. rewrite S1, S2. split; [exact A|]. split; [intros [X|X]; rewrite ST in X; discriminate X|]. intros _. unfold done. rewrite S1, S3, EO, A, HF. split; [reflexivity|].
    split; [intros X; rewrite (B4 X), HF; reflexivity|]. intros X. exists (k_handle c). eapply silent_in; [exact SF|]. apply VV; [reflexivity|exact X].
Qed.

Lemma accept_data_inv F b c w block data r c' w' : 0 < b <= 65535 -> cinv F b c (snd w) -> k_state c = CRecvData ->
  (block = k_expected c -> data = chunk F b (nblocks (snd w) + 1) /\ n_blksize (k_neg c) <= b) ->
  accept_data c w block data = Some (r, c', w') -> cinv F b c' (snd w').
Proof.
  intros Hb I HS HD H. pose proof I as (A & B & C). pose proof (B (or_intror HS)) as (B1 & B2 & B3 & B4 & B5). unfold accept_data in H; cbv beta zeta in H. pose proof (nblocks_nonneg (snd w)) as Hn.
  destruct (Z.eqb_spec block (k_expected c)) as [Eb|Eb].
  2:{ inv H; (eapply cinv_silent; [|exact I|reflexivity|auto|auto]); [eapply send_silent; eassumption|apply silent_refl|apply silent_refl]. }
  destruct (HD Eb) as (Ed & Hbl). clear HD.
  match type of H with (if ?g then _ else _) = _ => destruct g eqn:G end.
  { destruct (send_error (k_ops c) w (c_port (k_cfg c)) (k_server c) 3 m_toolarge) as [? w1] eqn:E1. destruct (client_finish c w1 ERR_SIZE) as [c2 w2] eqn:E2. inv H. apply finish_spec in E2. destruct E2 as (S2 & ST & _).
    eapply cinv_fail; [exact (silent_trans _ _ _ (error_silent _ _ _ _ _ _ _ _ E1) S2)|exact A|exact ST]. }
  apply orb_false_iff in G. destruct G as (G1 & _). apply Z.ltb_ge in G1.
  assert (L : 0 <= zlen data <= b) by (rewrite Ed, chunk_len by lia; lia).
  assert (L2 : k_total c + zlen data < 4294967296) by (unfold u32 in G1; rewrite Z.mod_small in G1 by lia; lia).
  (* open *)
  match type of H with (let '(_, _) := ?e in _) = _ => destruct e as [[ro c1] w1] eqn:EO end.
  assert (O : silent (snd w) (snd w1) /\ exists h, c1 = set_handle c h).
  { destruct (k_handle c =? 0); [|injection EO; intros; subst; split; [apply silent_refl|exists (k_handle c1); destruct c1; reflexivity]]. unfold open_sink in EO. destruct (negb (has_open (k_ops c)) || negb (has_write (k_ops c))); [inv EO; split; [apply silent_refl|eexists; reflexivity]|]. match type of EO with context [call ?w ?e] => destruct (call w e) as [a0 w0] eqn:E0 end. inv EO. split; [|eexists; reflexivity]. eapply silent_call; [exact E0|exact Logic.I]. }
  destruct O as (SO & h & ->). cbn [set_handle k_handle k_off k_server k_total k_cfg k_neg k_last k_adv k_deadline k_expected k_acked k_wcount k_retries k_status k_state k_req k_final k_locked k_name k_ops] in H.
  assert (I1 : cinv F b (set_handle c h) (snd w1)) by (eapply cinv_silent; [exact SO|exact I|reflexivity| |cbn; rewrite HS; discriminate]; intros _; split; [right; exact HS|auto]).
  destruct (negb (ro =? 0)).
  { destruct (send_error (k_ops c) w1 (c_port (k_cfg c)) (k_server c) 2 m_open) as [? w2] eqn:E1. match type of H with context [client_finish ?c ?w ?s] => destruct (client_finish c w s) as [c3 w3] eqn:E2 end. inv H. apply finish_spec in E2. destruct E2 as (S2 & ST & _).
    eapply cinv_fail; [exact (silent_trans _ _ _ SO (silent_trans _ _ _ (error_silent _ _ _ _ _ _ _ _ E1) S2))|exact A|exact ST]. }
  (* write *)
  match type of H with context [call ?w ?e] => destruct (call w e) as [a w2] eqn:EW end. apply call_inv in EW.
  destruct (Z.eqb_spec (a_rc a) 0) as [Ra|Ra]; cbn [negb] in H.
  2:{ assert (SW : silent (snd w1) (snd w2)) by (rewrite EW; exists [EWrite h (k_off c) data (a_rc a)]; split; [reflexivity|constructor; [exact Ra|constructor]]).
    destruct (send_error (k_ops c) w2 (c_port (k_cfg c)) (k_server c) 2 m_write) as [? w3] eqn:E1. match type of H with context [client_finish ?c ?w ?s] => destruct (client_finish c w s) as [c4 w4] eqn:E2 end. inv H. apply finish_spec in E2. destruct E2 as (S2 & ST & _).
    eapply cinv_fail; [exact (silent_trans _ _ _ SO (silent_trans _ _ _ SW (silent_trans _ _ _ (error_silent _ _ _ _ _ _ _ _ E1) S2)))|exact A|exact ST]. }
  rewrite Ra in EW. destruct (silent_spec _ _ SO) as (SO1 & SO2 & SO3).
  destruct (store_block F b (set_handle c h) (snd w1) (zlen data) h data) as (W1 & W2 & W3 & W4); [lia|exact I1|right; exact HS|rewrite SO2; exact Ed|reflexivity|].
  cbn [set_handle k_off k_total] in W1, W2, W3, W4. rewrite <- EW in W1, W2, W3, W4.
  set (N := nblocks (snd w2)) in *. set (S := firstn (Z.to_nat (N * b)) F) in *.
  (* hash *)
  match type of H with (let '(_, _) := ?e in _) = _ => destruct e as [rh w3] eqn:EH end.
  assert (HH : stored (snd w3) = Some S /\ nblocks (snd w3) = N /\ (has_hash (k_ops c) = true -> hashed (snd w3) = S)).
  { assert (X : has_hash (k_ops c) = true -> hashed (snd w2) ++ data = S). { intros X. rewrite W4, SO3, (B4 X). unfold S. rewrite W2, SO2, <- chunk_step by lia. rewrite <- Ed. reflexivity. }
    destruct (has_hash (k_ops c)) eqn:HHs; cbn [andb] in EH.
    - destruct (Z.ltb_spec 0 (zlen data)).
      + match type of EH with context [call ?w ?e] => destruct (call w e) as [a3 w3'] eqn:E3 end. apply call_inv in E3. injection EH as <- <-. rewrite E3. cbn [stored nblocks hashed]. split; [exact W1|]. split; [reflexivity|]. intros _. apply X. reflexivity.
      + injection EH as <- <-. split; [exact W1|]. split; [reflexivity|]. intros _. rewrite <- (X eq_refl). assert (data = []) as -> by (destruct data; [reflexivity|rewrite zlen_cons in *; pose proof (zlen_nonneg data); lia]). rewrite app_nil_r. reflexivity.
    - injection EH as <- <-. split; [exact W1|]. split; [reflexivity|discriminate]. }
  destruct HH as (H1 & H2 & H3).
  destruct (negb (rh =? 0)).
  { destruct (send_error (k_ops c) w3 (c_port (k_cfg c)) (k_server c) 0 m_hash) as [? w4] eqn:E1. match type of H with context [client_finish ?c ?w ?s] => destruct (client_finish c w s) as [c5 w5] eqn:E2 end. inv H. apply finish_spec in E2. destruct E2 as (S2 & ST & _).
    eapply cinv_fail; [exact (silent_trans _ _ _ (error_silent _ _ _ _ _ _ _ _ E1) S2)|rewrite H2; exact H1|exact ST]. }
  assert (FIN : (zlen data <? n_blksize (k_neg c)) = true -> S = F). { intros X. apply Z.ltb_lt in X. unfold S. rewrite W2, SO2. apply chunk_short; [lia|lia|rewrite <- Ed; lia]. }
  assert (KI : forall cc (ww : world), silent (snd w3) (snd ww) -> k_ops cc = k_ops c -> k_off cc = u32 (k_off c + zlen data) -> k_total cc = u32 (k_total c + zlen data) -> k_expected cc = u16 (k_expected c + 1) -> k_state cc = CRecvData -> cinv F b cc (snd ww)).
  { intros cc ww SS Q1 Q2 Q3 Q4 Q5. destruct (silent_spec _ _ SS) as (Y1 & Y2 & Y3). unfold cinv. rewrite Y1, Y2, Y3, H2. fold S. split; [exact H1|]. split; [|rewrite Q5; discriminate]. intros _. rewrite Q1, Q2, Q3, Q4.
    assert (ZS : zlen S = k_total c + zlen data) by exact W3. unfold u32. rewrite !Z.mod_small by (pose proof (zlen_nonneg (firstn (Z.to_nat (nblocks (snd w) * b)) F)); lia). split; [lia|]. split; [lia|]. split; [|split; [exact H3|lia]].
    rewrite B3, u16_eq, W2, SO2. clear. set (m := nblocks (snd w)). rewrite Z.add_mod_idemp_l by lia. reflexivity. }
  match type of H with (if ?g then _ else _) = _ => destruct g end.
  - match type of H with context [tftp_send ?a ?b ?c ?d ?e ?f] => destruct (tftp_send a b c d e f) as [rs w4] eqn:ES end. pose proof (send_silent _ _ _ _ _ _ _ _ ES) as SS. destruct (negb (rs =? 0)).
    + inv H. apply KI; try reflexivity; assumption.
    + eapply accept_end_inv; [| | | |exact H]; [lia|apply KI; try reflexivity; assumption|exact HS|]. cbn [k_final]. intros X. rewrite (proj1 (proj2 (silent_spec _ _ SS))), H2. exact (FIN X).
  - eapply accept_end_inv; [| | | |exact H]; [lia|apply KI; try reflexivity; try assumption; apply silent_refl|exact HS|]. cbn [k_final]. intros X. rewrite H2. exact (FIN X).
Qed.

(** ** Packets *)
Lemma zlen_len4 {A} (l : list A) : 4 <= zlen l -> exists a b c d r, l = a :: b :: c :: d :: r.
Proof. intros H. destruct l as [|a [|b [|c [|d r]]]]; try (cbn in H; lia). eauto 6. Qed.
Lemma read_u16_at p a b r : read_u16 (p ++ a :: b :: r) (zlen p) = Some (256 * a + b).
Proof.
  unfold read_u16. rewrite rd1_at. cbn [obind]. change (p ++ a :: b :: r) with (p ++ [a] ++ b :: r). rewrite app_assoc. replace (zlen p + 1) with (zlen (p ++ [a])) by (rewrite zlen_app; reflexivity). rewrite rd1_at. reflexivity.
Qed.
Lemma read_u16_cons a b r : read_u16 (a :: b :: r) 0 = Some (256 * a + b).
Proof. exact (read_u16_at [] a b r). Qed.
Lemma parse_data_cons a b c d r : zlen r <= 65531 -> parse_data (a :: b :: c :: d :: r) = if 256 * a + b =? 3 then Some (Some (256 * c + d, r)) else Some None.
Proof.
  intros L. unfold parse_data. rewrite !zlen_cons. pose proof (zlen_nonneg r). destruct (Z.ltb_spec (1 + (1 + (1 + (1 + zlen r)))) 4); [lia|]. rewrite read_u16_cons. cbn [obind]. unfold OP_DATA.
  destruct (256 * a + b =? 3); [|reflexivity]. cbn [negb]. change (read_u16 (a :: b :: c :: d :: r) 2) with (read_u16 ([a; b] ++ c :: d :: r) (zlen [a; b])). rewrite read_u16_at. cbn [obind]. replace (u16 (1 + (1 + (1 + (1 + zlen r))) - 4)) with (zlen r) by (unfold u16; rewrite Z.mod_small; lia).
  change (a :: b :: c :: d :: r) with ([a; b; c; d] ++ r). 
  assert (M : mread ([a; b; c; d] ++ r) 4 (zlen r) = Some r) by (pose proof (mread_app [a; b; c; d] r []) as M; rewrite app_nil_r in M; exact M). rewrite M. reflexivity.
Qed.
Lemma parse_data_pkt bl d : 0 <= bl < 65536 -> zlen d <= 65531 -> parse_data (data_pkt bl d) = Some (Some (bl, d)).
Proof. intros H L. unfold data_pkt. cbn [app]. rewrite parse_data_cons by exact L. change (256 * 0 + 3 =? 3) with true. cbv iota. do 3 f_equal. lia. Qed.
Lemma parse_data_is buf bl d : Forall byte buf -> parse_data buf = Some (Some (bl, d)) -> is_data buf.
Proof.
  intros Hb H. unfold parse_data in H. destruct (Z.ltb_spec (zlen buf) 4); [discriminate|]. destruct (zlen_len4 buf) as (x & y & z & t & r & ->); [lia|].
  rewrite read_u16_cons in H. cbn [obind] in H. destruct (Z.eqb_spec (256 * x + y) OP_DATA) as [E|]; [|discriminate]. unfold OP_DATA, byte in *. pose proof (Forall_inv Hb). pose proof (Forall_inv (Forall_inv_tail Hb)). cbv beta in *.
  assert (x = 0) by lia. assert (y = 3) by lia. subst. exists [z; t], r. split; reflexivity.
Qed.
Lemma data_pkt_is bl d : is_data (data_pkt bl d).
Proof. exists [bl / 256; bl mod 256], d. split; reflexivity. Qed.

Lemma receive_inv F b c w local remote buf r c' w' : 0 < b <= 65464 -> Forall byte buf -> zlen buf <= 65535 -> cinv F b c (snd w) ->
  (from_server c local remote -> active c -> is_data buf -> exists i, honest_data F b i buf /\ Z.abs (i - (1 + nblocks (snd w))) < 65536 /\ believed c <= b) ->
  client_receive c w local remote buf = Some (r, c', w') -> cinv F b c' (snd w').
Proof.
  intros Hb HB HL I HD H. unfold client_receive in H. cbv beta zeta in H.
  destruct (Z.eqb_spec local (c_port (k_cfg c))) as [El|]; [cbn [negb] in H|cbn in H; inv H; exact I].
  destruct (k_state c) eqn:ST; try (inv H; exact I).
  all: destruct (Z.eqb_spec (fst remote) (fst (k_server c))) as [Ei|]; [cbn [negb] in H|cbn in H; inv H; exact I].
  all: match type of H with (if ?e then _ else _) = _ => destruct e eqn:LK end;
    [match type of H with (let '(_, _) := ?e in _) = _ => destruct e as [? w1] eqn:E1 end; inv H; eapply cinv_silent; [eapply error_silent; exact E1|exact I|reflexivity|auto|auto]|].
  all: assert (FS : from_server c local remote) by (split; [exact El|split; [exact Ei|]]; intros X; rewrite X in LK; destruct (Z.eqb_spec (snd remote) (snd (k_server c))); [assumption|discriminate LK]).
  all: assert (ACT : active c) by (unfold active; tauto).
  all: inv1 H; match type of H with (if ?e then _ else _) = _ => destruct e eqn:OA end.
  (* OACK *)
  1, 3: match type of H with context [parse_oack ?a ?b ?c] => destruct (proj1 (tftp_oack_parse_exact a b c HB)) as (po & PO & PE) end; rewrite PO in H; cbn [obind] in H; match type of H with match ?s with _ => _ end = _ => destruct s as [g|e] eqn:? end;
    [match type of H with (if ?e then _ else _) = _ => destruct e end;
      [match type of H with context [send_error ?a ?b ?c ?d ?e ?f] => destruct (send_error a b c d e f) as [? w1] eqn:E1 end; match type of H with context [client_finish ?c ?w ?s] => destruct (client_finish c w s) as [c3 w3] eqn:E2 end;
       inv H; apply finish_spec in E2; destruct E2 as (S2 & S3 & _); eapply cinv_fail; [exact (silent_trans _ _ _ (error_silent _ _ _ _ _ _ _ _ E1) S2)|exact (proj1 I)|exact S3]
      |match type of H with (let '(_, _) := ?e in _) = _ => destruct e as [rs w1] eqn:E1 end; pose proof (send_silent _ _ _ _ _ _ _ _ E1) as SS; destruct (negb (rs =? 0)); inv H; (eapply cinv_silent; [exact SS|exact I|reflexivity| |cbn; rewrite ?ST; discriminate]; cbn; auto)]
    |match type of H with context [client_finish ?c ?w ?s] => destruct (client_finish c w s) as [c3 w3] eqn:E2 end; inv H; apply finish_spec in E2; destruct E2 as (S2 & S3 & _); eapply cinv_fail; [exact S2|exact (proj1 I)|destruct (PE _ eq_refl); subst; exact S3]].
  all: match type of H with (if ?e then _ else _) = _ => destruct e end;
    [match type of H with context [client_finish ?c ?w ?s] => destruct (client_finish c w s) as [c3 w3] eqn:E2 end; inv H; apply finish_spec in E2; destruct E2 as (S2 & S3 & _); eapply cinv_fail; [exact S2|exact (proj1 I)|exact S3]|].
  all: match type of H with (if ?e then _ else _) = _ => destruct e end; [inv H; exact I|].
  all: inv1 H; match type of H with match ?s with _ => _ end = _ => destruct s as [[block data]|] end; [|inv H; exact I].
  all: destruct (HD FS ACT (parse_data_is _ _ _ HB E0)) as (i & (Hi & Ep) & Hal & Hbl).
  all: assert (LC : 0 <= zlen (chunk F b i) <= b) by (rewrite chunk_len by lia; lia).
  all: rewrite Ep, parse_data_pkt in E0 by lia; injection E0 as E1 E2.
  all: pose proof I as (I1 & I2 & I3); destruct (I2 ACT) as (J1 & J2 & J3 & J4 & J5).
  all: eapply accept_data_inv; [| | | |exact H]; [lia| |reflexivity|].
  1, 3: eapply cinv_silent; [apply silent_refl|exact I|reflexivity|cbn; auto|cbn; discriminate].
  all: cbn [k_expected k_neg]; intros X; rewrite J3 in X; assert (i = nblocks (snd w) + 1) by (clear - X E1 Hal Hi; pose proof (nblocks_nonneg (snd w)); lia).
  all: split; [congruence|]; unfold believed in Hbl; rewrite ST in Hbl; exact Hbl.
Qed.
Lemma poll_inv F b c w now r c' w' : cinv F b c (snd w) -> client_poll c w now = (r, c', w') -> cinv F b c' (snd w').
Proof.
  intros I H. unfold client_poll in H. cbv beta zeta in H. destruct (k_state c) eqn:ST; try (inv H; exact I).
  all: repeat (match type of H with (if ?e then _ else _) = _ => destruct e end; [try (inv H; eapply cinv_silent; [apply silent_refl|exact I|reflexivity|cbn; unfold active; rewrite ?ST; auto|cbn; congruence]; fail)|]).
  1, 3: destruct (client_finish c w ERR_TIMEOUT) as [c3 w3] eqn:E2; inv H; apply finish_spec in E2; destruct E2 as (S2 & S3 & _); eapply cinv_fail; [exact S2|exact (proj1 I)|exact S3].
  all: match type of H with (let '(_, _) := ?e in _) = _ => destruct e as [rs w1] eqn:E1 end; inv H; eapply cinv_silent; [exact (send_silent _ _ _ _ _ _ _ _ E1)|exact I|reflexivity|cbn; unfold active; rewrite ?ST; auto|cbn; congruence].
Qed.
Lemma start_inv F b c w server name r c' w' : client_start c w server name = Some (r, c', w') -> r = 0 -> active c' /\ cinv F b c' [].
Proof.
  intros H ->. unfold client_start in H. assert (X : c' = c' /\ exists s n l bits, c' = mkC (k_ops c) (k_cfg c) (neg_defaults (k_cfg c)) s 0 l 0 0 0 0 1 0 0 0 0 CWaitFirst bits false false n).
  { split; [reflexivity|]. destruct (k_state c); try (inv H; discriminate). all: inv1 H; destruct p as [r0 nm]; destruct (Z.eqb_spec r0 0); cbn [negb] in H; [|inv H; congruence]. all: inv1 H; destruct p as [r1 [[buf bits] len]]; destruct (Z.eqb_spec r1 0); cbn [negb] in H; [|inv H; congruence].
    all: match type of H with (let '(_, _) := ?e in _) = _ => destruct e as [rs w1] eqn:E1 end; destruct (Z.eqb_spec rs 0); cbn [negb] in H; [|inv H; congruence]. all: inv H; cbn; eauto 6. }
  destruct X as (_ & s & n & l & bits & ->). split; [left; reflexivity|]. unfold cinv. change (nblocks []) with 0. change (0 * b) with 0. cbn. repeat (split; [reflexivity|]). split; [|discriminate]. intros _. repeat split; reflexivity.
Qed.
Lemma session_inv F b c0 w0 c w : 0 < b <= 65464 -> cinv F b c0 (snd w0) -> session F b c0 w0 c w -> cinv F b c (snd w).
Proof.
  intros Hb I S. induction S as [|c w now r c' w' S IH H|c w local remote buf r c' w' S IH HB HL HD H]; [exact I|eapply poll_inv; eassumption|eapply receive_inv; eassumption].
Qed.
