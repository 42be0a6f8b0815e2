(** C35: EAPOL-Key, EAP and RSN IE codecs. *)
From Verif Require Import Base ListUtil HttpUrl Eapol ForwardSpec ForwardProofs ForwardStep ForwardProps.
Local Ltac Zify.zify_post_hook ::= Z.to_euclidean_division_equations.

(** ** Specification (IEEE 802.1X-2010 11.3, IEEE 802.11-2020 12.7.2, RFC 3748 4) *)
Definition key_frame (f : list Z) : Prop :=
  99 <= zlen f /\ (zget f 0 = 1 \/ zget f 0 = 2) /\ zget f 1 = 3 /\ 95 <= word f 2 /\ 4 + word f 2 <= zlen f /\
  zget f 4 = 2 /\ 95 + word f 97 <= word f 2.
Definition key_fields (f : list Z) (k : kview) : Prop :=
  kv_frame_len k = 4 + word f 2 /\ kv_body_len k = word f 2 /\ kv_info k = word f 5 /\ kv_key_len k = word f 7 /\
  kv_replay k = part f 9 8 /\ kv_nonce k = part f 17 32 /\ kv_mic k = part f 81 16 /\ kv_data k = part f 99 (word f 97).
(** The frame described by the fields, MIC zero. *)
Definition key_bytes (info klen : Z) (replay nonce data : list Z) : list Z :=
  [2; 3; (95 + zlen data) / 256; (95 + zlen data) mod 256; 2; info / 256; info mod 256; klen / 256; klen mod 256] ++ replay ++ nonce ++
  repeat 0 48 ++ [zlen data / 256; zlen data mod 256] ++ data.

Definition eap_ok (b : list Z) : Prop :=
  4 <= zlen b /\ 4 <= word b 2 <= zlen b /\ ((zget b 0 = 1 \/ zget b 0 = 2) -> 5 <= word b 2).
Definition eap_fields (b : list Z) (e : eview) : Prop :=
  ev_code e = zget b 0 /\ ev_id e = zget b 1 /\ ev_length e = word b 2 /\
  (zget b 0 = 1 \/ zget b 0 = 2 -> ev_type e = zget b 4 /\ ev_data e = part b 5 (word b 2 - 5)).

Lemma rd16_in f o : 0 <= o -> o + 1 < zlen f -> eapol_rd16 f o = Some (word f o).
Proof. intros H1 H2. unfold eapol_rd16. rewrite !rd1_in by lia. reflexivity. Qed.

(** Parsing any frame reads only inside it, accepts exactly the well-formed ones and
    returns the fields at the offsets of the standard. *)
Theorem eapol_key_parse_exact : forall f, Forall byte f -> exists r, eapol_key_parse f = Some r /\
  (key_frame f -> exists k, r = Some k /\ key_fields f k) /\ (~ key_frame f -> r = None).
Proof.
  intros f HB. unfold eapol_key_parse, key_frame.
  destruct (Z.ltb_spec (zlen f) 99). { eexists. split; [reflexivity|]. split; [lia|reflexivity]. }
  rewrite !rd1_in, !rd16_in by lia. cbn [obind]. pose proof (word_range f 2 HB). pose proof (word_range f 97 HB).
  destruct (Z.eqb_spec (zget f 0) 2); destruct (Z.eqb_spec (zget f 0) 1); cbn [negb andb]; try lia;
    try (eexists; split; [reflexivity|]; split; [lia|reflexivity]);
  (destruct (Z.eqb_spec (zget f 1) 3); cbn [negb]; [|eexists; split; [reflexivity|]; split; [lia|reflexivity]];
  destruct (Z.ltb_spec (zlen f) (word f 2 + 4)); [eexists; split; [reflexivity|]; split; [lia|reflexivity]|];
  destruct (Z.ltb_spec (word f 2) 95); [eexists; split; [reflexivity|]; split; [lia|reflexivity]|];
  destruct (Z.eqb_spec (zget f 4) 2); cbn [negb]; [|eexists; split; [reflexivity|]; split; [lia|reflexivity]];
  destruct (Z.ltb_spec (word f 2) (95 + word f 97)); [eexists; split; [reflexivity|]; split; [lia|reflexivity]|];
  rewrite !mread_part by lia; cbn [obind]; eexists; split; [reflexivity|]; split; [|lia]; intros _; eexists; split; [reflexivity|];
  unfold key_fields; cbn [kv_frame_len kv_body_len kv_info kv_key_len kv_replay kv_nonce kv_mic kv_data]; repeat (split; [first [reflexivity|lia]|]); reflexivity).
Qed.
Print Assumptions eapol_key_parse_exact.

(** Writing in a buffer given by its segments. *)
Lemma mw_skip (a m m' b : list Z) pos p : pos = zlen a + p -> 0 <= p -> mwrite m p b = Some m' -> mwrite (a ++ m) pos b = Some (a ++ m').
Proof.
  intros -> HP H. unfold mwrite in *. rewrite zlen_app. pose proof (zlen_nonneg a). destruct ((0 <=? p) && (p + zlen b <=? zlen m)) eqn:E; [|discriminate].
  replace ((0 <=? zlen a + p) && (zlen a + p + zlen b <=? zlen a + zlen m)) with true by lia. injection H as <-. f_equal. pose proof (zlen_nonneg b).
  rewrite firstn_app, skipn_app, <- app_assoc. replace (Z.to_nat (zlen a + p) - length a)%nat with (Z.to_nat p) by (unfold zlen in *; lia).
  replace (Z.to_nat (zlen a + p + zlen b) - length a)%nat with (Z.to_nat (p + zlen b)) by (unfold zlen in *; lia).
  rewrite firstn_all2 by (unfold zlen in *; lia). rewrite (skipn_all2 a) by (unfold zlen in *; lia). reflexivity.
Qed.
Lemma mw_here (b c b' : list Z) : zlen b' = zlen b -> mwrite (b ++ c) 0 b' = Some (b' ++ c).
Proof. intros H. apply (mwrite_eq _ [] b c); auto. Qed.
Lemma ostep {A B} (e : option A) (k : A -> option B) x r : e = Some x -> k x = r -> obind e k = r.
Proof. intros -> H. exact H. Qed.
Ltac seglen := rewrite ?zlen_repeat; first [reflexivity|assumption|lia|cbn; lia].
Ltac here := apply mw_here; seglen.
(** skip one segment of length [n] *)
Ltac skip1 n p := eapply (mw_skip _ _ _ _ _ p); [match goal with |- _ = zlen ?a + _ => assert (zlen a = n) as -> by seglen; reflexivity end|lia|].

Lemma mw_opt (m d : list Z) o : 0 <= o <= zlen m -> (if 0 <? zlen d then mwrite m o d else Some m) = mwrite m o d.
Proof.
  intros H. destruct (Z.ltb_spec 0 (zlen d)) as [D|D]; [reflexivity|]. replace d with (@nil Z) by (destruct d; [reflexivity|rewrite zlen_cons in D; pose proof (zlen_nonneg d); lia]).
  unfold mwrite. change (zlen (@nil Z)) with 0. rewrite Z.add_0_r. replace ((0 <=? o) && (o <=? zlen m)) with true by lia. cbn [app]. rewrite firstn_skipn. reflexivity.
Qed.
Lemma mread_whole (a : list Z) n : zlen a = n -> mread a 0 n = Some a.
Proof. intros H. rewrite <- (app_nil_r a) at 1. apply mread_pre. exact H. Qed.
Lemma repeat_cut (n : Z) : 0 <= n -> repeat 0 (Z.to_nat (99 + n)) =
  [0] ++ [0] ++ [0;0] ++ [0] ++ [0;0] ++ [0;0] ++ repeat 0 8 ++ repeat 0 32 ++ repeat 0 48 ++ [0;0] ++ repeat 0 (Z.to_nat n).
Proof.
  intros H. change ([0] ++ [0] ++ [0; 0] ++ [0] ++ [0; 0] ++ [0; 0] ++ repeat 0 8 ++ repeat 0 32 ++ repeat 0 48 ++ [0; 0] ++ repeat 0 (Z.to_nat n))
    with (repeat 0 99 ++ repeat 0 (Z.to_nat n)). rewrite <- repeat_split. f_equal. lia.
Qed.
Lemma u8_div v : 0 <= v < 65536 -> u8 (v / 256) = v / 256.
Proof. intros H. unfold u8. apply Z.mod_small. lia. Qed.

Lemma key_build_ok out info klen replay nonce data : 0 <= info < 65536 -> 0 <= klen < 65536 -> zlen replay = 8 -> zlen nonce = 32 -> 95 + zlen data <= 65535 -> 99 + zlen data <= zlen out ->
  eapol_key_build out info klen replay nonce data = Some (key_bytes info klen replay nonce data ++ skipn (Z.to_nat (99 + zlen data)) out, Some (99 + zlen data)).
Proof.
  intros HI HK HR HN HD HO. pose proof (zlen_nonneg data) as DN. destruct (split_at out (99 + zlen data)) as (a & rest & -> & LA & LR); [lia|].
  assert (RS : skipn (Z.to_nat (99 + zlen data)) (a ++ rest) = rest).
  { rewrite skipn_app, skipn_all2 by (unfold zlen in *; lia). replace (Z.to_nat (99 + zlen data) - length a)%nat with 0%nat by (unfold zlen in *; lia). reflexivity. }
  rewrite RS. unfold eapol_key_build. destruct (Z.ltb_spec 65535 (95 + zlen data)); [lia|]. destruct (Z.ltb_spec (zlen (a ++ rest)) (99 + zlen data)); [lia|].
  eapply ostep; [apply mw_here; rewrite zlen_repeat; lia|].
  rewrite repeat_cut by lia. rewrite <- !app_assoc. unfold eapol_wr16.
  eapply ostep; [here|].
  eapply ostep; [skip1 1 0; here|].
  eapply ostep; [skip1 1 1; skip1 1 0; here|].
  eapply ostep; [skip1 1 3; skip1 1 2; skip1 2 0; here|].
  eapply ostep; [skip1 1 4; skip1 1 3; skip1 2 1; skip1 1 0; here|].
  eapply ostep; [skip1 1 6; skip1 1 5; skip1 2 3; skip1 1 2; skip1 2 0; here|].
  eapply ostep; [apply (mread_whole replay 8 HR)|].
  eapply ostep; [skip1 1 8; skip1 1 7; skip1 2 5; skip1 1 4; skip1 2 2; skip1 2 0; here|].
  eapply ostep; [apply (mread_whole nonce 32 HN)|].
  eapply ostep; [skip1 1 16; skip1 1 15; skip1 2 13; skip1 1 12; skip1 2 10; skip1 2 8; skip1 8 0; here|].
  eapply ostep; [skip1 1 96; skip1 1 95; skip1 2 93; skip1 1 92; skip1 2 90; skip1 2 88; skip1 8 80; skip1 32 48; skip1 48 0; here|].
  rewrite mw_opt by (rewrite !zlen_app, !zlen_repeat, HR, HN; pose proof (zlen_nonneg rest); rewrite !zlen_cons; change (zlen (@nil Z)) with 0; lia).
  eapply ostep; [skip1 1 98; skip1 1 97; skip1 2 95; skip1 1 94; skip1 2 92; skip1 2 90; skip1 8 82; skip1 32 50; skip1 48 2; skip1 2 0; apply mw_here; rewrite zlen_repeat; lia|].
  unfold key_bytes. rewrite !u8_div by lia. unfold u8. rewrite <- !app_assoc. reflexivity.
Qed.

(** Building never writes outside the buffer, fails exactly when the frame does not
    fit, and produces exactly the frame of the fields; the rest of the buffer is kept. *)
Theorem eapol_key_build_exact : forall out info klen replay nonce data,
  0 <= info < 65536 -> 0 <= klen < 65536 -> zlen replay = 8 -> zlen nonce = 32 ->
  eapol_key_build out info klen replay nonce data =
  Some (if (95 + zlen data <=? 65535) && (99 + zlen data <=? zlen out)
        then (key_bytes info klen replay nonce data ++ skipn (Z.to_nat (99 + zlen data)) out, Some (99 + zlen data))
        else (out, None)).
Proof.
  intros out info klen replay nonce data HI HK HR HN. destruct (Z.leb_spec (95 + zlen data) 65535) as [A|A]; [destruct (Z.leb_spec (99 + zlen data) (zlen out)) as [B|B]|]; cbn [andb].
  - apply key_build_ok; assumption.
  - unfold eapol_key_build. destruct (Z.ltb_spec 65535 (95 + zlen data)); [lia|]. destruct (Z.ltb_spec (zlen out) (99 + zlen data)); [reflexivity|lia].
  - unfold eapol_key_build. destruct (Z.ltb_spec 65535 (95 + zlen data)); [reflexivity|lia].
Qed.
Print Assumptions eapol_key_build_exact.

Lemma key_bytes_len info klen replay nonce data : zlen replay = 8 -> zlen nonce = 32 -> zlen (key_bytes info klen replay nonce data) = 99 + zlen data.
Proof. intros HR HN. unfold key_bytes. rewrite !zlen_app, zlen_repeat, HR, HN, !zlen_cons. change (zlen (@nil Z)) with 0. lia. Qed.

Lemma part_seg (a b c : list Z) o n : o = zlen a -> n = zlen b -> part (a ++ b ++ c) o n = b.
Proof. intros -> ->. pose proof (mread_app a b c) as H. unfold mread in H. destruct (_ && _); [|discriminate]. injection H as H. exact H. Qed.

(** A built frame, whatever follows it on the wire, parses back to the fields it was
    built from. *)
Theorem eapol_key_round_trip : forall info klen replay nonce data tail,
  0 <= info < 65536 -> 0 <= klen < 65536 -> zlen replay = 8 -> zlen nonce = 32 -> Forall byte replay -> Forall byte nonce -> Forall byte data -> 95 + zlen data <= 65535 -> Forall byte tail ->
  eapol_key_parse (key_bytes info klen replay nonce data ++ tail) =
  Some (Some (mkKv (99 + zlen data) (95 + zlen data) info klen replay nonce (repeat 0 16) data)).
Proof.
  intros info klen replay nonce data tail HI HK HR HN B1 B2 B3 HD B4. set (f := key_bytes info klen replay nonce data ++ tail).
  pose proof (zlen_nonneg data) as DN. pose proof (zlen_nonneg tail) as TN.
  assert (LF : zlen f = 99 + zlen data + zlen tail) by (unfold f; rewrite zlen_app, key_bytes_len by assumption; reflexivity).
  assert (HF : Forall byte f).
  { unfold f, key_bytes. repeat rewrite Forall_app. assert (R0 : forall k, Forall byte (repeat 0 k)) by (intros k; apply Forall_forall; intros x HX; apply repeat_spec in HX; subst; unfold byte; lia).
    split; [|exact B4]. split; [repeat (constructor; [unfold byte; lia|]); constructor|]. split; [exact B1|]. split; [exact B2|]. split; [apply R0|]. split; [|exact B3]. repeat (constructor; [unfold byte; lia|]); constructor. }
  set (h := [2; 3; (95 + zlen data) / 256; (95 + zlen data) mod 256; 2; info / 256; info mod 256; klen / 256; klen mod 256]).
  assert (EF : f = h ++ replay ++ nonce ++ repeat 0 48 ++ [zlen data / 256; zlen data mod 256] ++ data ++ tail) by (unfold f, key_bytes; rewrite <- !app_assoc; reflexivity).
  assert (Z0 : forall i, 0 <= i < 9 -> zget f i = zget h i) by (intros i Hi; rewrite EF; apply zget_app1; exact Hi).
  assert (W2 : word f 2 = 95 + zlen data). { unfold word. rewrite !Z0 by lia. change (zget h 2) with ((95 + zlen data) / 256). change (zget h (2 + 1)) with ((95 + zlen data) mod 256). lia. }
  assert (W5 : word f 5 = info). { unfold word. rewrite !Z0 by lia. change (zget h 5) with (info / 256). change (zget h (5 + 1)) with (info mod 256). lia. }
  assert (W7 : word f 7 = klen). { unfold word. rewrite !Z0 by lia. change (zget h 7) with (klen / 256). change (zget h (7 + 1)) with (klen mod 256). lia. }
  assert (W97 : word f 97 = zlen data).
  { assert (Q : forall i, 0 <= i < 2 -> zget f (97 + i) = zget [zlen data / 256; zlen data mod 256] i).
    { intros i Hi. rewrite EF. rewrite zget_app2 by (change (zlen h) with 9; lia). rewrite zget_app2 by (change (zlen h) with 9; lia). rewrite zget_app2 by (change (zlen h) with 9; lia).
      rewrite zget_app2 by (rewrite zlen_repeat; change (zlen h) with 9; lia). change (zlen h) with 9. rewrite HR, HN, zlen_repeat. replace (97 + i - 9 - 8 - 32 - Z.of_nat 48) with i by lia. apply zget_app1. exact Hi. }
    unfold word. pose proof (Q 0 ltac:(lia)) as Q0. rewrite Z.add_0_r in Q0. rewrite Q0, (Q 1) by lia. change (256 * (zlen data / 256) + zlen data mod 256 = zlen data). lia. }
  destruct (eapol_key_parse_exact f HF) as (r & E & OK & _). destruct OK as (k & -> & K).
  { unfold key_frame. rewrite W2, W97, !Z0 by lia. change (zget h 0) with 2. change (zget h 1) with 3. change (zget h 4) with 2. lia. }
  rewrite E. f_equal. f_equal. destruct K as (K1 & K2 & K3 & K4 & K5 & K6 & K7 & K8). destruct k as [k1 k2 k3 k4 k5 k6 k7 k8]; cbn [kv_frame_len kv_body_len kv_info kv_key_len kv_replay kv_nonce kv_mic kv_data] in *. rewrite W2 in K1, K2. rewrite W5 in K3. rewrite W7 in K4. rewrite W97 in K8.
  assert (P1 : part f 9 8 = replay) by (rewrite EF; apply part_seg; [reflexivity|auto]).
  assert (P2 : part f 17 32 = nonce) by (rewrite EF, (app_assoc h); apply part_seg; [rewrite zlen_app, HR; reflexivity|auto]).
  assert (P3 : part f 81 16 = repeat 0 16).
  { rewrite EF. rewrite (app_assoc h), (app_assoc (h ++ replay)). change (repeat 0 48) with (repeat 0 32 ++ repeat 0 16). rewrite <- !app_assoc. rewrite (app_assoc nonce), (app_assoc replay), (app_assoc h).
    apply part_seg; [rewrite !zlen_app, HR, HN; reflexivity|reflexivity]. }
  assert (P4 : part f 99 (zlen data) = data).
  { rewrite EF. rewrite (app_assoc (repeat 0 48)), (app_assoc nonce), (app_assoc replay), (app_assoc h). apply part_seg; [rewrite !zlen_app, HR, HN; reflexivity|reflexivity]. }
  rewrite P1 in K5. rewrite P2 in K6. rewrite P3 in K7. rewrite P4 in K8. rewrite K1, K2, K3, K4, K5, K6, K7, K8. f_equal; lia.
Qed.
Print Assumptions eapol_key_round_trip.
Example eapol_key_nonvacuous : key_frame (key_bytes 0x010A 16 [0;0;0;0;0;0;0;7] (repeat 9 32) [48;2;1;0] ++ [1;1]) /\
  eapol_key_parse (key_bytes 0x010A 16 [0;0;0;0;0;0;0;7] (repeat 9 32) [48;2;1;0] ++ [1;1]) = Some (Some (mkKv 103 99 266 16 [0;0;0;0;0;0;0;7] (repeat 9 32) (repeat 0 16) [48;2;1;0])) /\
  ~ key_frame (repeat 2 99) /\ eapol_key_parse (repeat 2 99) = Some None.
Proof. split; [vm_compute; intuition discriminate|]. split; [vm_compute; reflexivity|]. split; [vm_compute; intuition discriminate|vm_compute; reflexivity]. Qed.

(** EAP packets. *)
Theorem eap_parse_exact : forall b, Forall byte b -> exists r, eap_parse b = Some r /\
  (eap_ok b -> exists e, r = Some e /\ eap_fields b e) /\ (~ eap_ok b -> r = None).
Proof.
  intros b HB. unfold eap_parse, eap_ok, eap_fields. destruct (Z.ltb_spec (zlen b) 4). { eexists. split; [reflexivity|]. split; [lia|reflexivity]. }
  rewrite !rd1_in, rd16_in by lia. cbn [obind]. destruct (Z.ltb_spec (word b 2) 4); cbn [orb]. { eexists. split; [reflexivity|]. split; [lia|reflexivity]. }
  destruct (Z.ltb_spec (zlen b) (word b 2)). { eexists. split; [reflexivity|]. split; [lia|reflexivity]. }
  destruct ((zget b 0 =? 1) || (zget b 0 =? 2)) eqn:Q.
  - destruct (Z.ltb_spec (word b 2) 5). { eexists. split; [reflexivity|]. split; [lia|reflexivity]. }
    rewrite rd1_in, mread_part by lia. cbn [obind]. eexists. split; [reflexivity|]. split; [|lia]. intros _. eexists. split; [reflexivity|]. cbn. auto.
  - eexists. split; [reflexivity|]. split; [|lia]. intros _. eexists. split; [reflexivity|]. cbn. repeat (split; [reflexivity|]). lia.
Qed.
Print Assumptions eap_parse_exact.

Definition eapol_bytes (ty : Z) (payload : list Z) : list Z := [2; ty; zlen payload / 256; zlen payload mod 256] ++ payload.
Definition identity_bytes (id : Z) (identity : list Z) : list Z := [2; id; (5 + zlen identity) / 256; (5 + zlen identity) mod 256; 1] ++ identity.
Theorem eapol_eap_build_exact : forall out ty payload,
  eapol_eap_build out ty payload =
  Some (if (zlen payload <=? 65535) && (4 + zlen payload <=? zlen out) then (eapol_bytes ty payload ++ skipn (Z.to_nat (4 + zlen payload)) out, Some (4 + zlen payload)) else (out, None)).
Proof.
  intros out ty payload. unfold eapol_eap_build. pose proof (zlen_nonneg payload) as DN. destruct (Z.leb_spec (zlen payload) 65535); destruct (Z.ltb_spec 65535 (zlen payload)); try lia; cbn [andb]; [|reflexivity].
  destruct (Z.leb_spec (4 + zlen payload) (zlen out)); destruct (Z.ltb_spec (zlen out) (4 + zlen payload)); try lia; [|reflexivity].
  destruct (split_at out (4 + zlen payload)) as (a & rest & -> & LA & LR); [lia|].
  assert (RS : skipn (Z.to_nat (4 + zlen payload)) (a ++ rest) = rest).
  { rewrite skipn_app, skipn_all2 by (unfold zlen in *; lia). replace (Z.to_nat (4 + zlen payload) - length a)%nat with 0%nat by (unfold zlen in *; lia). reflexivity. }
  rewrite RS. destruct a as [|a0 [|a1 [|a2 [|a3 a4]]]]; try (unfold zlen in LA; cbn [length] in LA; lia). rewrite !zlen_cons in LA.
  change ((a0 :: a1 :: a2 :: a3 :: a4) ++ rest) with ([a0] ++ [a1] ++ [a2] ++ [a3] ++ a4 ++ rest).
  eapply ostep; [here|]. eapply ostep; [skip1 1 0; here|]. eapply ostep; [skip1 1 1; skip1 1 0; here|]. eapply ostep; [skip1 1 2; skip1 1 1; skip1 1 0; here|].
  rewrite mw_opt by (rewrite !zlen_app, !zlen_cons; pose proof (zlen_nonneg rest); change (zlen (@nil Z)) with 0; lia).
  eapply ostep; [skip1 1 3; skip1 1 2; skip1 1 1; skip1 1 0; apply mw_here; lia|].
  unfold eapol_bytes. rewrite u8_div by lia. reflexivity.
Qed.
Print Assumptions eapol_eap_build_exact.
Theorem eap_identity_exact : forall out id identity,
  eap_build_identity_response out id identity =
  Some (if (5 + zlen identity <=? zlen out) && (5 + zlen identity <=? 65535) then (identity_bytes id identity ++ skipn (Z.to_nat (5 + zlen identity)) out, Some (5 + zlen identity)) else (out, None)).
Proof.
  intros out id d. unfold eap_build_identity_response. pose proof (zlen_nonneg d) as DN.
  destruct (Z.leb_spec (5 + zlen d) (zlen out)); destruct (Z.ltb_spec (zlen out) (5 + zlen d)); try lia; cbn [andb orb]; [|reflexivity].
  destruct (Z.leb_spec (5 + zlen d) 65535); destruct (Z.ltb_spec 65535 (5 + zlen d)); try lia; [|reflexivity].
  destruct (split_at out (5 + zlen d)) as (a & rest & -> & LA & LR); [lia|].
  assert (RS : skipn (Z.to_nat (5 + zlen d)) (a ++ rest) = rest).
  { rewrite skipn_app, skipn_all2 by (unfold zlen in *; lia). replace (Z.to_nat (5 + zlen d) - length a)%nat with 0%nat by (unfold zlen in *; lia). reflexivity. }
  rewrite RS. destruct a as [|a0 [|a1 [|a2 [|a3 [|a4 a5]]]]]; try (unfold zlen in LA; cbn [length] in LA; lia). rewrite !zlen_cons in LA.
  change ((a0 :: a1 :: a2 :: a3 :: a4 :: a5) ++ rest) with ([a0] ++ [a1] ++ [a2] ++ [a3] ++ [a4] ++ a5 ++ rest).
  eapply ostep; [here|]. eapply ostep; [skip1 1 0; here|]. eapply ostep; [skip1 1 1; skip1 1 0; here|]. eapply ostep; [skip1 1 2; skip1 1 1; skip1 1 0; here|].
  eapply ostep; [skip1 1 3; skip1 1 2; skip1 1 1; skip1 1 0; here|].
  rewrite mw_opt by (rewrite !zlen_app, !zlen_cons; pose proof (zlen_nonneg rest); change (zlen (@nil Z)) with 0; lia).
  eapply ostep; [skip1 1 4; skip1 1 3; skip1 1 2; skip1 1 1; skip1 1 0; apply mw_here; lia|].
  unfold identity_bytes. rewrite u8_div by lia. reflexivity.
Qed.
Print Assumptions eap_identity_exact.
(** An identity response parses back. *)
Theorem eap_identity_round_trip : forall id identity tail, byte id -> Forall byte identity -> Forall byte tail -> 5 + zlen identity <= 65535 ->
  eap_parse (identity_bytes id identity ++ tail) = Some (Some (mkEv 2 id (5 + zlen identity) 1 identity)).
Proof.
  intros id d tail HI HD HT HL. unfold eap_parse. set (b := identity_bytes id d ++ tail). pose proof (zlen_nonneg d). pose proof (zlen_nonneg tail).
  assert (LB : zlen b = 5 + zlen d + zlen tail) by (unfold b, identity_bytes; rewrite !zlen_app; reflexivity).
  destruct (Z.ltb_spec (zlen b) 4); [lia|]. rewrite !rd1_in, rd16_in by lia. cbn [obind].
  assert (W : word b 2 = 5 + zlen d) by (change (256 * ((5 + zlen d) / 256) + (5 + zlen d) mod 256 = 5 + zlen d); lia). rewrite W.
  destruct (Z.ltb_spec (5 + zlen d) 4); [lia|]. destruct (Z.ltb_spec (zlen b) (5 + zlen d)); [lia|]. cbn [orb].
  change (zget b 0) with 2. cbn [Z.eqb Pos.eqb orb]. destruct (Z.ltb_spec (5 + zlen d) 5); [lia|].
  rewrite mread_part by lia. cbn [obind]. change (zget b 1) with id. change (zget b 4) with 1. 
  replace (part b 5 (5 + zlen d - 5)) with d; [reflexivity|]. symmetry. unfold b, identity_bytes. rewrite <- app_assoc. apply part_seg; [reflexivity|lia].
Qed.
Print Assumptions eap_identity_round_trip.

(** The RSN information element of a WPA2-PSK/CCMP station, with these capabilities. *)
Definition rsn_bytes (caps : Z) : list Z :=
  [48; 20; 1; 0] ++ [0; 15; 172; 4] ++ [1; 0] ++ [0; 15; 172; 4] ++ [1; 0] ++ [0; 15; 172; 2] ++ [caps mod 256; caps / 256].
Theorem rsn_ie_exact : forall out caps, 0 <= caps < 65536 ->
  rsn_ie_build out caps = Some (if 22 <=? zlen out then (rsn_bytes caps ++ skipn 22 out, Some 22) else (out, None)).
Proof.
  intros out caps HC. unfold rsn_ie_build. destruct (Z.leb_spec 22 (zlen out)); destruct (Z.ltb_spec (zlen out) 22); try lia; [|reflexivity].
  destruct (split_at out 2) as (s0 & o0 & E0 & L0 & M0); [lia|].
  destruct (split_at o0 2) as (s1 & o1 & E1 & L1 & M1); [lia|].
  destruct (split_at o1 4) as (s2 & o2 & E2 & L2 & M2); [lia|].
  destruct (split_at o2 2) as (s3 & o3 & E3 & L3 & M3); [lia|].
  destruct (split_at o3 4) as (s4 & o4 & E4 & L4 & M4); [lia|].
  destruct (split_at o4 2) as (s5 & o5 & E5 & L5 & M5); [lia|].
  destruct (split_at o5 4) as (s6 & o6 & E6 & L6 & M6); [lia|].
  destruct (split_at o6 2) as (s7 & o7 & E7 & L7 & M7); [lia|].
  assert (RS : skipn 22 out = o7).
  { change 22%nat with (Z.to_nat 22). rewrite E0, E1, E2, E3, E4, E5, E6, E7, !app_assoc, skipn_app, skipn_all2 by (rewrite <- !app_assoc; unfold zlen in *; rewrite ?app_length in *; lia).
    replace (Z.to_nat 22 - _)%nat with 0%nat; [reflexivity|]. unfold zlen in *; rewrite ?app_length in *; lia. }
  rewrite RS, E0, E1, E2, E3, E4, E5, E6, E7. unfold wr16_le.
  eapply ostep; [here|].
  eapply ostep; [skip1 2 0; here|].
  eapply ostep; [skip1 2 2; skip1 2 0; here|].
  eapply ostep; [skip1 2 6; skip1 2 4; skip1 4 0; here|].
  eapply ostep; [skip1 2 8; skip1 2 6; skip1 4 2; skip1 2 0; here|].
  eapply ostep; [skip1 2 12; skip1 2 10; skip1 4 6; skip1 2 4; skip1 4 0; here|].
  eapply ostep; [skip1 2 14; skip1 2 12; skip1 4 8; skip1 2 6; skip1 4 2; skip1 2 0; here|].
  eapply ostep; [skip1 2 18; skip1 2 16; skip1 4 12; skip1 2 10; skip1 4 6; skip1 2 4; skip1 4 0; here|].
  unfold rsn_bytes. rewrite (u8_div caps) by lia. unfold u8. reflexivity.
Qed.
Print Assumptions rsn_ie_exact.

Lemma bytes_eqb_eq a : forall b, bytes_eqb a b = true <-> a = b.
Proof.
  induction a as [|x a IH]; intros [|y b]; cbn [bytes_eqb]; try (split; [discriminate|discriminate]); [tauto|].
  rewrite Bool.andb_true_iff, Z.eqb_eq, IH. split; [intros [-> ->]; reflexivity|intros H; injection H; auto].
Qed.
Theorem rsn_ie_equal_exact : forall a b, rsn_ie_equal a b = true <-> a = b.
Proof. intros a b. unfold rsn_ie_equal. rewrite Bool.andb_true_iff, bytes_eqb_eq, Z.eqb_eq. split; [tauto|intros ->; auto]. Qed.
Print Assumptions rsn_ie_equal_exact.
