(** Proofs about the ESP model: sealing and opening, padding, the header. *)
From Verif Require Import Base Checksum ChecksumProps Arp Forward EspReplay Esp EspSpec EspWire.

Lemma be32_len n : zlen (be32 n) = 4. Proof. reflexivity. Qed.
Lemma iv_len_range e : 0 <= iv_len e <= 16. Proof. destruct e; cbn; lia. Qed.
Lemma sa_icv_range s : sa_ok s -> 0 <= sa_icv s <= 16.
Proof. intros (_ & _ & _ & _ & _ & H). unfold hmac_part in H. destruct (sa_enc s); intuition lia. Qed.

Lemma hmac_icv_len c s data i : 0 <= sa_icv s <= 32 -> hmac_icv c s data = Some i -> zlen i = sa_icv s.
Proof.
  unfold hmac_icv. intros R H. destruct (hmac c (sa_auth s) (sa_akey s) data) as [h|]; [|discriminate].
  cbn [obind] in H. injection H as <-. apply zlen_firstn; [lia|]. rewrite zlen_app. pose proof (zlen_nonneg h).
  match goal with |- context [zlen (0 :: ?l)] => change (zlen (0 :: l)) with 32 end. lia.
Qed.

Lemma cut_app a b n : n = zlen a -> cut (a ++ b) n = (a, b).
Proof. intros. unfold cut. rewrite firstn_app_z, skipn_app_z by assumption. reflexivity. Qed.
Lemma slice_mid (a b d : list Z) m n : zlen a = Z.of_nat m -> zlen b = Z.of_nat n -> slice (a ++ b ++ d) m n = b.
Proof.
  intros Ha Hb. unfold slice. unfold zlen in *.
  rewrite skipn_app. replace (m - length a)%nat with 0%nat by lia. rewrite skipn_all2 by lia. cbn [app skipn].
  rewrite firstn_app. replace (n - length b)%nat with 0%nat by lia. rewrite firstn_O, app_nil_r. apply firstn_all2. lia.
Qed.
Lemma app_assoc4 (a b d e : list Z) : (a ++ b) ++ d ++ e = a ++ b ++ d ++ e.
Proof. rewrite <- app_assoc. reflexivity. Qed.

Lemma gen_iv_len s q : zlen (sa_preiv s) = 8 -> zlen (gen_iv s q) = 8.
Proof.
  intros H. unfold gen_iv, zlen in *. rewrite app_length, firstn_length.
  rewrite xor_bytes_len; rewrite skipn_length; [lia|]. cbn [length be32]. lia.
Qed.

(** What the three pieces of a sealed packet are, and that [open_] inverts it. *)
Lemma open_seal c rng s t q body esp : crypto_ok c -> rng_ok rng -> sa_ok s -> same_suite s t ->
  seal c rng s q body = Some esp ->
  exists rest, esp = (sa_spi s ++ be32 q) ++ rest /\ zlen esp = 8 + iv_len (sa_enc s) + zlen body + sa_icv s /\
    open_ c t esp = Some body.
Proof.
  intros (LC & LG & LM & _) RN OK (Q1 & Q2 & Q3 & Q4 & Q5 & Q6) H. pose proof (sa_icv_range s OK) as RI.
  destruct OK as (O1 & O2 & O3 & _ & _ & O6). unfold seal in H.
  assert (HD : zlen (sa_spi s ++ be32 q) = 8) by (rewrite zlen_app, be32_len; lia).
  set (hdr := sa_spi s ++ be32 q) in *.
  assert (KEY : aes_key t = aes_key s /\ salt t = salt s) by (unfold aes_key, salt; rewrite Q3; auto).
  destruct KEY as (K1 & K2).
  assert (HM : forall data i, hmac_icv c t data = Some i <-> hmac_icv c s data = Some i)
    by (intros; unfold hmac_icv; rewrite Q4, Q5, Q6; tauto).
  (* the common tail: data then ICV *)
  assert (TAIL : forall iv ct tag,
    let data := hdr ++ iv ++ ct in
    zlen iv = iv_len (sa_enc s) -> zlen ct = zlen body -> (is_hmac (sa_auth s) = false -> sa_icv s <> 0 -> zlen tag = sa_icv s) ->
    (if sa_icv s =? 0 then Some data else if is_hmac (sa_auth s) then do i <- hmac_icv c s data; Some (data ++ i) else
     if is_aead (sa_auth s) then Some (data ++ tag) else None) = Some esp ->
    exists icv, esp = (hdr ++ iv ++ ct) ++ icv /\ zlen icv = sa_icv s /\
      (is_hmac (sa_auth s) = false -> sa_icv s <> 0 -> icv = tag) /\
      (if sa_icv s =? 0 then Some true
       else if is_hmac (sa_auth s) then do i <- hmac_icv c t (hdr ++ iv ++ ct); Some (leqb icv i)
       else Some (is_aead (sa_auth s))) = Some true).
  { intros iv ct tag data Liv Lct Ltag E. destruct (Z.eqb_spec (sa_icv s) 0) as [Z0|Z0].
    - exists []. injection E as <-. rewrite app_nil_r. rewrite Z0. auto using zlen_nil. repeat split; auto; lia.
    - destruct (is_hmac (sa_auth s)) eqn:HH.
      + destruct (hmac_icv c s data) as [i|] eqn:EI; [|discriminate]. cbn [obind] in E. injection E as <-.
        exists i. split; [reflexivity|]. split; [eapply hmac_icv_len; [|eassumption]; lia|]. split; [discriminate|].
        apply HM in EI. subst data. rewrite EI. cbn [obind]. rewrite leqb_refl. reflexivity.
      + destruct (is_aead (sa_auth s)) eqn:HA; [|discriminate]. injection E as <-. exists tag. auto. }
  assert (FIN : forall iv ct icv,
    zlen iv = iv_len (sa_enc s) -> zlen ct = zlen body -> esp = (hdr ++ iv ++ ct) ++ icv -> zlen icv = sa_icv s ->
    (if sa_icv s =? 0 then Some true
       else if is_hmac (sa_auth s) then do i <- hmac_icv c t (hdr ++ iv ++ ct); Some (leqb icv i)
       else Some (is_aead (sa_auth s))) = Some true ->
    match sa_enc s with
    | ENone => Some ct
    | ECbcAes => cbc_dec c ECbcAes (sa_ekey s) iv ct
    | ECbcDes3 => if negb (zlen (sa_ekey s) =? 24) then None else cbc_dec c ECbcDes3 (sa_ekey s) iv ct
    | EGcm4106 => gcm_dec c (aes_key s) (salt s ++ iv) ct hdr icv
    | EGcm4543 => if gmac_ok c (aes_key s) (salt s ++ iv) (hdr ++ iv ++ ct) icv then Some ct else None
    end = Some body ->
    exists rest, esp = hdr ++ rest /\ zlen esp = 8 + iv_len (sa_enc s) + zlen body + sa_icv s /\ open_ c t esp = Some body).
  { intros iv ct icv Liv Lct -> Licv EICV EDEC. exists ((iv ++ ct) ++ icv). split; [rewrite <- !app_assoc; reflexivity|].
    assert (LE : zlen ((hdr ++ iv ++ ct) ++ icv) = 8 + iv_len (sa_enc s) + zlen body + sa_icv s)
      by (rewrite !zlen_app; lia).
    split; [exact LE|]. unfold open_. rewrite LE, <- Q6.
    rewrite cut_app by (rewrite !zlen_app; lia).
    rewrite <- Q4, EICV. cbn [obind negb]. rewrite <- Q2, <- Q3, K1, K2.
    pose proof (iv_len_range (sa_enc s)).
    rewrite (slice_mid hdr iv ct) by lia.
    assert (SK : skipn (Z.to_nat (8 + iv_len (sa_enc s))) (hdr ++ iv ++ ct) = ct).
    { rewrite app_assoc. apply skipn_app_z. rewrite zlen_app. lia. }
    rewrite SK.
    assert (FH : firstn 8 (hdr ++ iv ++ ct) = hdr).
    { change 8%nat with (Z.to_nat 8). apply firstn_app_z. lia. }
    rewrite FH. exact EDEC. }
  destruct (sa_enc s) eqn:EE; cbn [obind] in H.
  - (* ENone *)
    destruct O6 as (HH & HI). destruct (TAIL [] body (repeat 0 (Z.to_nat (sa_icv s)))) as (icv & E1 & E2 & _ & E4); try reflexivity.
    { congruence. } { exact H. }
    apply (FIN [] body icv); auto.
  - (* AES-CBC *)
    cbn [andb] in H. destruct rng as [r|]; [|discriminate]. cbn [obind] in H.
    destruct (cbc_enc c ECbcAes (sa_ekey s) (firstn (Z.to_nat (iv_len ECbcAes)) r) body) as [ct|] eqn:EC; [|discriminate].
    cbn [obind] in H. destruct (LC _ _ _ _ _ EC) as (D1 & D2).
    assert (LIV : zlen (firstn (Z.to_nat (iv_len ECbcAes)) r) = iv_len ECbcAes) by (apply zlen_firstn; cbn in *; lia).
    destruct (TAIL _ ct (repeat 0 (Z.to_nat (sa_icv s))) LIV D2) as (icv & E1 & E2 & _ & E4).
    { intros _ _. unfold zlen. rewrite repeat_length. lia. } { exact H. }
    apply (FIN (firstn (Z.to_nat (iv_len (sa_enc s))) r) ct icv); rewrite ?EE; auto.
  - destruct O6 as (KL & _). rewrite KL in H. cbn [negb andb Z.eqb Pos.eqb] in H. destruct rng as [r|]; [|discriminate]. cbn [obind] in H.
    destruct (cbc_enc c ECbcDes3 (sa_ekey s) (firstn (Z.to_nat (iv_len ECbcDes3)) r) body) as [ct|] eqn:EC; [|discriminate].
    cbn [obind] in H. destruct (LC _ _ _ _ _ EC) as (D1 & D2).
    assert (LIV : zlen (firstn (Z.to_nat (iv_len ECbcDes3)) r) = iv_len ECbcDes3) by (apply zlen_firstn; cbn in *; lia).
    destruct (TAIL _ ct (repeat 0 (Z.to_nat (sa_icv s))) LIV D2) as (icv & E1 & E2 & _ & E4).
    { intros _ _. unfold zlen. rewrite repeat_length. lia. } { exact H. }
    apply (FIN (firstn (Z.to_nat (iv_len (sa_enc s))) r) ct icv); rewrite ?EE; auto. rewrite KL. exact D1.
  - destruct O6 as (AA & II & _).
    destruct (gcm_enc c (aes_key s) (salt s ++ gen_iv s q) body hdr (sa_icv s)) as [[ct tag]|] eqn:EC; [|discriminate].
    cbn [obind] in H. destruct (LG _ _ _ _ _ _ _ EC) as (D1 & D2 & D3).
    destruct (TAIL (gen_iv s q) ct tag) as (icv & E1 & E2 & E3 & E4); auto using gen_iv_len.
    apply (FIN (gen_iv s q) ct icv); auto using gen_iv_len. rewrite E3; [exact D1|rewrite AA; reflexivity|lia].
  - destruct O6 as (AA & II & _).
    destruct (gmac c (aes_key s) (salt s ++ gen_iv s q) (hdr ++ gen_iv s q ++ body) (sa_icv s)) as [tag|] eqn:EC; [|discriminate].
    cbn [obind] in H. destruct (LM _ _ _ _ _ EC) as (D1 & D3).
    destruct (TAIL (gen_iv s q) body tag) as (icv & E1 & E2 & E3 & E4); auto using gen_iv_len.
    apply (FIN (gen_iv s q) body icv); auto using gen_iv_len. rewrite E3; [rewrite D1; reflexivity|rewrite AA; reflexivity|lia].
Qed.

Lemma trailer_body orig pad nh : 0 <= pad < 256 -> trailer (orig ++ padding pad ++ [pad; nh]) = Some (orig, nh).
Proof.
  intros R. unfold trailer. rewrite !zlen_app, padding_len by lia. change (zlen [pad; nh]) with 2.
  pose proof (zlen_nonneg orig).
  assert (P : zget (orig ++ padding pad ++ [pad; nh]) (zlen orig + (pad + 2) - 2) = pad).
  { rewrite app_assoc, zget_app2 by (rewrite zlen_app, padding_len; lia). rewrite zlen_app, padding_len by lia.
    replace (zlen orig + (pad + 2) - 2 - (zlen orig + pad)) with 0 by lia. reflexivity. }
  assert (N : zget (orig ++ padding pad ++ [pad; nh]) (zlen orig + (pad + 2) - 1) = nh).
  { rewrite app_assoc, zget_app2 by (rewrite zlen_app, padding_len; lia). rewrite zlen_app, padding_len by lia.
    replace (zlen orig + (pad + 2) - 1 - (zlen orig + pad)) with 1 by lia. reflexivity. }
  rewrite P, N. replace (zlen orig + (pad + 2) <? pad + 2) with false by lia.
  replace (zlen orig + (pad + 2) - 2 - pad) with (zlen orig) by lia.
  rewrite slice_mid; [|lia|rewrite padding_len; lia]. rewrite leqb_refl. rewrite firstn_app_z by reflexivity. reflexivity.
Qed.

(** ** The header *)
Lemma zget_hdr0 F v l0 l1 p c0 c1 r : zget (hdr F v l0 l1 p c0 c1 ++ r) 0 = v. Proof. reflexivity. Qed.
Lemma firstn_hdr F v l0 l1 p c0 c1 o r n : n = 20 + zlen o ->
  firstn (Z.to_nat n) (hdr F v l0 l1 p c0 c1 ++ o ++ r) = hdr F v l0 l1 p c0 c1 ++ o.
Proof. intros ->. rewrite app_assoc. apply firstn_app_z. rewrite hdr_zlen. reflexivity. Qed.
Lemma skipn_hdr F v l0 l1 p c0 c1 o r n : n = 20 + zlen o ->
  skipn (Z.to_nat n) (hdr F v l0 l1 p c0 c1 ++ o ++ r) = r.
Proof. intros ->. rewrite app_assoc. apply skipn_app_z. rewrite hdr_zlen. reflexivity. Qed.

(** What leaves [wrap_sa]: the header (and options) with length, protocol and
    checksum rewritten, then the sealed packet. *)
Lemma wrap_sa_inv c rng F v l0 l1 p c0 c1 opts pl s s' w : crypto_ok c -> rng_ok rng -> sa_ok s ->
  ihl_bytes v = 20 + zlen opts ->
  wrap_sa c rng (hdr F v l0 l1 p c0 c1 ++ opts ++ pl) s = Some (s', WSend w) ->
  exists q pad esp, esp_next_oseq (sa_rep s) = (sa_rep s', Some q) /\ s' = with_rep s (sa_rep s') /\
    pad = pad_for (sa_enc s) (zlen pl) /\
    seal c rng s' q (pl ++ padding pad ++ [pad; p]) = Some esp /\
    20 + zlen opts + zlen esp <= esp_room /\
    let L := 20 + zlen opts + zlen esp in
    let k := ckv (firstn (Z.to_nat (20 + zlen opts)) (hdr F v (b1 L) (b0 L) 50 0 0 ++ opts ++ esp)) in
    w = hdr F v (b1 L) (b0 L) 50 (b1 k) (b0 k) ++ opts ++ esp.
Proof.
  intros LC RN OK HV H. unfold wrap_sa in H. rewrite zget_hdr0, HV in H.
  rewrite skipn_hdr in H by reflexivity. rewrite firstn_hdr in H by reflexivity.
  destruct (Z.ltb_spec esp_room (zlen (hdr F v l0 l1 p c0 c1 ++ opts ++ pl) + 8 + iv_len (sa_enc s))); [discriminate|].
  destruct (esp_next_oseq (sa_rep s)) as [r o] eqn:EO. destruct o as [q|]; [|discriminate].
  change (sa_enc (with_rep s r)) with (sa_enc s) in H. change (sa_icv (with_rep s r)) with (sa_icv s) in H.
  match type of H with (if ?b then _ else _) = _ => destruct b eqn:EB end; [discriminate|].
  change (zget (hdr F v l0 l1 p c0 c1 ++ opts ++ pl) 9) with p in H.
  destruct (seal c rng (with_rep s r) q (pl ++ padding (pad_for (sa_enc s) (zlen pl)) ++ [pad_for (sa_enc s) (zlen pl); p])) as [esp|] eqn:ES;
    [|discriminate].
  assert (OKr : sa_ok (with_rep s r)).
  { destruct OK as (O1 & O2 & O3 & O4 & O5 & O6). unfold sa_ok. cbn [sa_spi sa_preiv sa_rep sa_enc sa_auth sa_icv sa_ekey with_rep] in *.
    split; [assumption|]. split; [assumption|]. split; [assumption|].
    unfold esp_next_oseq in EO. unfold u32 in EO. destruct ((r_oseq (sa_rep s) + 1) mod 4294967296 =? 0); injection EO as <- _; cbn [r_hi r_oseq] in *;
    (split; [assumption|]; split; [lia|exact O6]). }
  assert (SSr : same_suite (with_rep s r) (with_rep s r)) by (unfold same_suite; auto 10).
  destruct (open_seal c rng _ _ q _ esp LC RN OKr SSr ES) as (rest & E1 & E2 & _).
  change (sa_enc (with_rep s r)) with (sa_enc s) in E2. change (sa_icv (with_rep s r)) with (sa_icv s) in E2.
  pose proof (pad_for_range (sa_enc s) (zlen pl) (zlen_nonneg pl)) as PR.
  rewrite !zlen_app, padding_len in E2 by lia. change (zlen [pad_for (sa_enc s) (zlen pl); p]) with 2 in E2.
  rewrite hdr_zlen, zlen_app in EB.
  rewrite <- app_assoc in H. rewrite hdr_put2 in H. cbn [obind] in H. rewrite hdr_put9 in H. cbn [obind] in H.
  assert (LW : zlen (hdr F v l0 l1 p c0 c1 ++ opts ++ esp) = 20 + zlen opts + zlen esp) by (rewrite hdr_zlen, zlen_app; lia).
  pose proof (zlen_nonneg opts). pose proof (zlen_nonneg esp).
  assert (BD : 20 + zlen opts + zlen esp <= esp_room) by lia.
  assert (U : u16 (zlen (hdr F v l0 l1 p c0 c1 ++ opts ++ esp)) = 20 + zlen opts + zlen esp).
  { rewrite LW. unfold u16, esp_room in *. lia. }
  rewrite U in H.
  assert (HL : hlen v = 20 + zlen opts) by (unfold hlen; rewrite HV; destruct (Z.ltb_spec (20 + zlen opts) 20); lia).
  rewrite hdr_ck in H by (rewrite HL, zlen_app; lia). rewrite HL in H. cbn [obind] in H. injection H as <- <-.
  exists q, (pad_for (sa_enc s) (zlen pl)), esp. cbn [sa_rep with_rep]. auto 10.
Qed.

Lemma after_same s q : same_suite s (after s q) /\ sa_src (after s q) = sa_src s /\ sa_dst (after s q) = sa_dst s.
Proof.
  unfold after, same_suite. destruct (sa_icv s =? 0); [auto 10|]. destruct (esp_replay_commit (sa_rep s) q); cbn; auto 10.
Qed.
(** What [unwrap_sa] makes of a packet that opens. *)
Lemma unwrap_sa_ok c F v l0 l1 c0 c1 esp slack s pl nh pt : ihl_bytes v = 20 -> zlen pl < 60000 ->
  (sa_icv s = 0 \/ exists r, esp_replay_check (sa_rep s) (rd32 esp 4) = Some true /\ esp_replay_commit (sa_rep s) (rd32 esp 4) = Some r) ->
  8 + iv_len (sa_enc s) + 2 + sa_icv s <= zlen esp -> open_ c s esp = Some pt -> trailer pt = Some (pl, nh) ->
  let s' := after s (rd32 esp 4) in
  let L := 20 + zlen pl in
  let k := ckv (hdr F v (b1 L) (b0 L) nh 0 0) in
  unwrap_sa c (hdr F v l0 l1 50 c0 c1 ++ esp ++ slack) esp s = Some (s', UOk (hdr F v (b1 L) (b0 L) nh (b1 k) (b0 k) ++ pl)).
Proof.
  intros HV PL HR HLn HO HT s' L k. unfold unwrap_sa.
  assert (E1 : (if sa_icv s =? 0 then Some true else esp_replay_check (sa_rep s) (rd32 esp 4)) = Some true).
  { destruct HR as [->|(r & -> & _)]; [reflexivity|]. destruct (sa_icv s =? 0); reflexivity. }
  rewrite E1. cbn [obind negb].
  destruct (Z.ltb_spec (zlen esp) (8 + iv_len (sa_enc s) + 2 + sa_icv s)); [lia|].
  rewrite HO.
  assert (E2 : (if sa_icv s =? 0 then Some s else do r <- esp_replay_commit (sa_rep s) (rd32 esp 4); Some (with_rep s r)) = Some s').
  { unfold s', after. destruct (Z.eqb_spec (sa_icv s) 0); [reflexivity|]. destruct HR as [Z0|(r & _ & ->)]; [contradiction|reflexivity]. }
  rewrite E2. cbn [obind]. rewrite HT. rewrite hdr_firstn. rewrite hdr_put2. cbn [obind]. rewrite hdr_put9. cbn [obind].
  pose proof (zlen_nonneg pl).
  replace (u16 (zlen (hdr F v l0 l1 50 c0 c1 ++ pl))) with L by (rewrite hdr_zlen; unfold u16; lia).
  rewrite hdr_ck20 by (unfold hlen; rewrite HV; reflexivity). reflexivity.
Qed.

(** ** Option removal *)
Definition v5 (v : Z) : Z := Z.lor (Z.land v 240) 5.
Lemma v5_ihl v : ihl_bytes (v5 v) = 20.
Proof.
  unfold ihl_bytes, v5. rewrite Z.land_lor_distr_l, <- Z.land_assoc.
  change (Z.land 240 15) with 0. rewrite Z.land_0_r. reflexivity.
Qed.
Lemma hlen_of_e e F v l0 l1 p c0 c1 r : zlen e = 14 ->
  hlen_of (e ++ hdr F v l0 l1 p c0 c1 ++ r) = ihl_bytes v.
Proof.
  intros H. unfold hlen_of. rewrite zget_app2 by lia. rewrite H. change (14 - 14) with 0. rewrite zget_hdr0.
  unfold ihl_bytes. rewrite Z.shiftl_mul_pow2 by lia. reflexivity.
Qed.
Lemma mread_at {A} (a b d : list A) n m : n = zlen a -> m = zlen b -> mread (a ++ b ++ d) n m = Some b.
Proof.
  intros -> ->. unfold mread. rewrite !zlen_app. pose proof (zlen_nonneg a). pose proof (zlen_nonneg b). pose proof (zlen_nonneg d).
  replace ((0 <=? zlen a) && (0 <=? zlen b) && (zlen a + zlen b <=? zlen a + (zlen b + zlen d))) with true by lia.
  rewrite skipn_app_z by reflexivity. rewrite firstn_app_z by reflexivity. reflexivity.
Qed.
Lemma mwrite_at {A} (a b d b' : list A) n : n = zlen a -> zlen b' = zlen b -> mwrite (a ++ b ++ d) n b' = Some (a ++ b' ++ d).
Proof.
  intros -> E. unfold mwrite. rewrite !zlen_app, E. pose proof (zlen_nonneg a). pose proof (zlen_nonneg b). pose proof (zlen_nonneg d).
  replace ((0 <=? zlen a) && (zlen a + zlen b <=? zlen a + (zlen b + zlen d))) with true by lia.
  rewrite firstn_app_z by reflexivity. rewrite (app_assoc a b d), skipn_app_z by (rewrite zlen_app; lia). reflexivity.
Qed.
Lemma strip_hdr e F v l0 l1 p c0 c1 opts r : zlen e = 14 -> ihl_bytes v = 20 + zlen opts -> 0 < zlen opts ->
  let T := u16 (256 * l0 + l1 - u16 (zlen opts)) in
  let k := ckv (hdr F (v5 v) (b1 T) (b0 T) p 0 0) in
  strip_options (e ++ hdr F v l0 l1 p c0 c1 ++ opts ++ r) = Some (e ++ hdr F (v5 v) (b1 T) (b0 T) p (b1 k) (b0 k) ++ r).
Proof.
  intros He HV HO T k. unfold strip_options. rewrite hlen_of_e, HV by assumption.
  destruct (Z.leb_spec (20 + zlen opts) 20); [lia|].
  pose proof (zlen_nonneg r).
  assert (LF : zlen (e ++ hdr F v l0 l1 p c0 c1 ++ opts ++ r) = 34 + zlen opts + zlen r) by (rewrite zlen_app, hdr_zlen, zlen_app; lia).
  rewrite LF. unfold HttpUrl.memmove.
  set (HD := hdr F v l0 l1 p c0 c1) in *. assert (LH : zlen HD = 20) by reflexivity.
  assert (M : mread (e ++ HD ++ opts ++ r) (14 + (20 + zlen opts)) (34 + zlen opts + zlen r - (14 + (20 + zlen opts))) = Some r).
  { replace (e ++ HD ++ opts ++ r) with ((e ++ HD ++ opts) ++ r ++ []) by (rewrite app_nil_r, <- !app_assoc; reflexivity).
    apply mread_at; rewrite ?zlen_app; lia. }
  rewrite M. cbn [obind].
  assert (W : exists x, mwrite (e ++ HD ++ opts ++ r) 34 r = Some (e ++ HD ++ r ++ x)).
  { exists (skipn (Z.to_nat (zlen r)) (opts ++ r)).
    replace (e ++ HD ++ opts ++ r) with ((e ++ HD) ++ firstn (Z.to_nat (zlen r)) (opts ++ r) ++ skipn (Z.to_nat (zlen r)) (opts ++ r))
      by (rewrite firstn_skipn, <- !app_assoc; reflexivity).
    rewrite (mwrite_at (e ++ HD) (firstn (Z.to_nat (zlen r)) (opts ++ r)) _ r); [rewrite <- app_assoc; reflexivity|rewrite zlen_app; lia|].
    rewrite zlen_firstn; [reflexivity|lia|rewrite zlen_app; lia]. }
  destruct W as (x & W). rewrite W. cbn [obind].
  assert (FN : firstn (Z.to_nat (34 + zlen opts + zlen r - (20 + zlen opts - 20))) (e ++ HD ++ r ++ x) = e ++ HD ++ r).
  { replace (e ++ HD ++ r ++ x) with ((e ++ HD ++ r) ++ x) by (rewrite <- !app_assoc; reflexivity).
    apply firstn_app_z. rewrite !zlen_app. lia. }
  rewrite FN.
  assert (Z14 : zget (e ++ HD ++ r) 14 = v) by (rewrite zget_app2 by lia; rewrite He; reflexivity).
  rewrite Z14. fold (v5 v).
  assert (W1 : mwrite (e ++ HD ++ r) 14 [v5 v] = Some (e ++ hdr F (v5 v) l0 l1 p c0 c1 ++ r)).
  { change (e ++ HD ++ r) with (e ++ [v] ++ (tl HD ++ r)). rewrite (mwrite_at e [v] _ [v5 v]); [reflexivity|lia|reflexivity]. }
  rewrite W1. cbn [obind].
  assert (R16 : rd16 (e ++ HD ++ opts ++ r) 16 = 256 * l0 + l1).
  { unfold rd16. rewrite (zget_app2 e _ 16), (zget_app2 e _ (16 + 1)) by lia. rewrite He. reflexivity. }
  rewrite R16. replace (20 + zlen opts - 20) with (zlen opts) by lia. fold T.
  assert (W2 : mwrite (e ++ hdr F (v5 v) l0 l1 p c0 c1 ++ r) 16 (be16 T) = Some (e ++ hdr F (v5 v) (b1 T) (b0 T) p c0 c1 ++ r)).
  { replace (e ++ hdr F (v5 v) l0 l1 p c0 c1 ++ r) with ((e ++ [v5 v; x_t F]) ++ [l0; l1] ++ (skipn 4 (hdr F (v5 v) l0 l1 p c0 c1) ++ r))
      by (rewrite <- app_assoc; reflexivity).
    rewrite (mwrite_at (e ++ [v5 v; x_t F]) [l0; l1] _ (be16 T)); [rewrite <- app_assoc; reflexivity|rewrite zlen_app; change (zlen [v5 v; x_t F]) with 2; lia|reflexivity]. }
  rewrite W2. cbn [obind].
  assert (SK : skipn 14 (e ++ hdr F (v5 v) (b1 T) (b0 T) p c0 c1 ++ r) = hdr F (v5 v) (b1 T) (b0 T) p c0 c1 ++ r).
  { change 14%nat with (Z.to_nat 14). apply skipn_app_z. lia. }
  assert (FK : firstn 14 (e ++ hdr F (v5 v) (b1 T) (b0 T) p c0 c1 ++ r) = e).
  { change 14%nat with (Z.to_nat 14). apply firstn_app_z. lia. }
  rewrite SK, FK. rewrite hdr_ck20 by (unfold hlen; rewrite v5_ihl; reflexivity). cbn [obind]. reflexivity.
Qed.

(** ** The whole receive path on a frame with a sealed packet: the lookup and [unwrap_sa]. *)
Lemma esp_in_eq c e F v l0 l1 c0 c1 opts esp slack ins l1' s l2' :
  zlen e = 14 -> ihl_bytes v = 20 + zlen opts -> 256 * l0 + l1 = 20 + zlen opts + zlen esp -> 0 <= l0 < 256 -> 0 <= l1 < 256 ->
  20 + zlen opts + zlen esp < 65536 -> (0 < zlen opts -> 34 + zlen opts + zlen esp + zlen slack <= 1536) ->
  ins = l1' ++ s :: l2' -> spi_valid (firstn 4 esp) = true -> 8 <= zlen esp ->
  let src := rd32 (hdr F v l0 l1 50 c0 c1) 12 in let dst := rd32 (hdr F v l0 l1 50 c0 c1) 16 in
  in_match (firstn 4 esp) src dst s = true -> (forall x, In x l1' -> in_match (firstn 4 esp) src dst x = false) ->
  let V := if zlen opts =? 0 then v else v5 v in
  exists g0 g1, 
    esp_in c false ins (e ++ hdr F v l0 l1 50 c0 c1 ++ opts ++ esp ++ slack) =
      do (s', r) <- unwrap_sa c (hdr F V (b1 (20 + zlen esp)) (b0 (20 + zlen esp)) 50 g0 g1 ++ esp ++ slack) esp s;
      Some (l1' ++ s' :: l2', match r with UOk ip => Some (e ++ ip) | UDrop => None end).
Proof.
  intros He HV HL B0 B1 HM HMTU HI HS HE src dst HP HP1 V.
  pose proof (zlen_nonneg opts). pose proof (zlen_nonneg slack).
  exists (if zlen opts =? 0 then c0 else b1 (ckv (hdr F (v5 v) (b1 (20 + zlen esp)) (b0 (20 + zlen esp)) 50 0 0))),
    (if zlen opts =? 0 then c1 else b0 (ckv (hdr F (v5 v) (b1 (20 + zlen esp)) (b0 (20 + zlen esp)) 50 0 0))).
  set (g0 := if zlen opts =? 0 then c0 else b1 (ckv (hdr F (v5 v) (b1 (20 + zlen esp)) (b0 (20 + zlen esp)) 50 0 0))) in *.
  set (g1 := if zlen opts =? 0 then c1 else b0 (ckv (hdr F (v5 v) (b1 (20 + zlen esp)) (b0 (20 + zlen esp)) 50 0 0))) in *.
  assert (ST : strip_options (e ++ hdr F v l0 l1 50 c0 c1 ++ opts ++ esp ++ slack) =
               Some (e ++ hdr F V (b1 (20 + zlen esp)) (b0 (20 + zlen esp)) 50 g0 g1 ++ esp ++ slack)).
  { unfold g0, g1, V. destruct (Z.eqb_spec (zlen opts) 0) as [Z0|Z0].
    - apply zlen_zero in Z0. subst opts. cbn [app]. unfold strip_options. rewrite hlen_of_e, HV by assumption. change (zlen (@nil Z)) with 0 in *.
      change (20 + 0 <=? 20) with true. cbv iota.
      assert (l0 = b1 (20 + zlen esp) /\ l1 = b0 (20 + zlen esp)) as (-> & ->).
      { unfold b1, b0. rewrite Z.shiftr_div_pow2 by lia. change (2 ^ 8) with 256. lia. }
      reflexivity.
    - rewrite strip_hdr by (try assumption; lia).
      replace (u16 (256 * l0 + l1 - u16 (zlen opts))) with (20 + zlen esp) by (unfold u16; lia). reflexivity. }
  unfold esp_in. rewrite hlen_of_e, HV by assumption.
  assert (GD : (20 <? 20 + zlen opts) && (1536 <? zlen (e ++ hdr F v l0 l1 50 c0 c1 ++ opts ++ esp ++ slack)) = false).
  { rewrite zlen_app, hdr_zlen, !zlen_app, He. lia. }
  rewrite GD, ST. cbn [obind].
  assert (Z23 : zget (e ++ hdr F V (b1 (20 + zlen esp)) (b0 (20 + zlen esp)) 50 g0 g1 ++ esp ++ slack) 23 = 50).
  { rewrite zget_app2 by lia. rewrite He. reflexivity. }
  rewrite Z23. cbn [negb Z.eqb Pos.eqb].
  assert (SK : forall r, skipn 14 (e ++ r) = r) by (intros r; change 14%nat with (Z.to_nat 14); apply skipn_app_z; lia).
  assert (FK : forall r, firstn 14 (e ++ r) = e) by (intros r; change 14%nat with (Z.to_nat 14); apply firstn_app_z; lia).
  rewrite SK, FK. unfold esp_unwrap. rewrite hdr_zlen, zlen_app. pose proof (zlen_nonneg esp).
  destruct (Z.ltb_spec (20 + (zlen esp + zlen slack)) 4); [lia|].
  assert (R2 : rd16 (hdr F V (b1 (20 + zlen esp)) (b0 (20 + zlen esp)) 50 g0 g1 ++ esp ++ slack) 2 = 20 + zlen esp).
  { change (256 * b1 (20 + zlen esp) + b0 (20 + zlen esp) = 20 + zlen esp). apply rd16_be. lia. }
  rewrite R2. replace ((20 + zlen esp <? 20) || (20 + (zlen esp + zlen slack) <? 20 + zlen esp)) with false by lia.
  destruct (Z.ltb_spec (20 + zlen esp - 20) 8); [lia|].
  rewrite (mread_at (hdr F V (b1 (20 + zlen esp)) (b0 (20 + zlen esp)) 50 g0 g1) esp slack) by (try reflexivity; lia).
  cbn [obind]. rewrite HS. cbn [negb].
  change (rd32 (hdr F V (b1 (20 + zlen esp)) (b0 (20 + zlen esp)) 50 g0 g1 ++ esp ++ slack) 12) with src.
  change (rd32 (hdr F V (b1 (20 + zlen esp)) (b0 (20 + zlen esp)) 50 g0 g1 ++ esp ++ slack) 16) with dst.
  destruct (unwrap_sa c (hdr F V (b1 (20 + zlen esp)) (b0 (20 + zlen esp)) 50 g0 g1 ++ esp ++ slack) esp s) as [[s' r]|] eqn:EU.
  - erewrite with_first_hit; [|exact HI|exact HP|exact HP1|exact EU]. cbn [obind]. destruct r; reflexivity.
  - cbn [obind]. assert (WN : with_first (in_match (firstn 4 esp) src dst)
      (unwrap_sa c (hdr F V (b1 (20 + zlen esp)) (b0 (20 + zlen esp)) 50 g0 g1 ++ esp ++ slack) esp) ins = None).
    { subst ins. clear - HP HP1 EU. induction l1' as [|x l IH]; cbn [app with_first].
      - rewrite HP, EU. reflexivity.
      - rewrite (HP1 x) by (left; reflexivity). rewrite IH; [reflexivity|]. intros y Hy. apply HP1. right. exact Hy. }
    rewrite WN. reflexivity.
Qed.
