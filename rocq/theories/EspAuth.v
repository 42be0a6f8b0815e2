(** C77: what ESP reception accepts. *)
From Verif Require Import Base Checksum ChecksumProps Arp Forward ForwardSpec ForwardProofs ForwardStep EspReplay EspReplayProps ReplaySpec Esp EspSpec EspWire EspProofs EspTrip EspProps.

Lemma cut_inv l n : fst (cut l n) ++ snd (cut l n) = l.
Proof. apply firstn_skipn. Qed.
Lemma open_authentic c s esp pt : 0 <= sa_icv s <= 32 -> (sa_enc s = EGcm4106 \/ sa_enc s = EGcm4543 -> sa_icv s <> 0) ->
  (sa_auth s = ANone -> sa_icv s = 0) -> (is_aead (sa_auth s) = true -> sa_enc s = EGcm4106 \/ sa_enc s = EGcm4543) ->
  8 + iv_len (sa_enc s) + 2 + sa_icv s <= zlen esp -> open_ c s esp = Some pt -> authentic c s esp pt.
Proof.
  intros RI HG HN HAE HL H. unfold open_ in H. destruct (cut esp (zlen esp - sa_icv s)) as [body icv] eqn:EC.
  pose proof (cut_inv esp (zlen esp - sa_icv s)) as CI. rewrite EC in CI. cbn [fst snd] in CI.
  assert (LI : zlen icv = sa_icv s /\ zlen body = zlen esp - sa_icv s).
  { unfold cut in EC. injection EC as <- <-. pose proof (iv_len_range (sa_enc s)). rewrite zlen_skipn, zlen_firstn by lia. lia. }
  destruct LI as (LI & LB).
  exists body, icv. cbv zeta. split; [auto|]. split; [exact LI|]. split; [lia|].
  match type of H with obind ?m _ = _ => destruct m as [ok|] eqn:EO end; [|discriminate]. cbn [obind] in H. destruct ok; [|discriminate]. cbn [negb] in H.
  assert (HM : sa_icv s <> 0 -> is_hmac (sa_auth s) = true -> exists h, hmac c (sa_auth s) (sa_akey s) body = Some h /\ icv = firstn (Z.to_nat (sa_icv s)) (h ++ repeat 0 32)).
  { intros NZ HH. destruct (Z.eqb_spec (sa_icv s) 0); [contradiction|]. rewrite HH in EO. unfold hmac_icv in EO.
    destruct (hmac c (sa_auth s) (sa_akey s) body) as [h|]; [|discriminate]. cbn [obind] in EO. exists h. split; [reflexivity|].
    apply leqb_eq. congruence. }
  assert (HM' : sa_enc s <> EGcm4106 -> sa_enc s <> EGcm4543 -> sa_icv s <> 0 -> exists h, hmac c (sa_auth s) (sa_akey s) body = Some h /\ icv = firstn (Z.to_nat (sa_icv s)) (h ++ repeat 0 32)).
  { intros N1 N2 NZ. apply HM; [exact NZ|]. destruct (sa_auth s) eqn:EA; try reflexivity; exfalso.
    - apply NZ, HN. reflexivity.
    - destruct HAE; [reflexivity| |]; contradiction.
    - destruct HAE; [reflexivity| |]; contradiction. }
  destruct (sa_enc s) eqn:EE.
  - split; [apply HM'; discriminate|congruence].
  - split; [apply HM'; discriminate|exact H].
  - destruct (negb (zlen (sa_ekey s) =? 24)); [discriminate|]. split; [apply HM'; discriminate|exact H].
  - exact H.
  - destruct (gmac_ok c (aes_key s) (salt s ++ slice body 8 (Z.to_nat (iv_len EGcm4543))) body icv) eqn:GM; [|discriminate]. split; [reflexivity|congruence].
Qed.
Lemma ok_open c s esp pt : sa_ok s -> 8 + iv_len (sa_enc s) + 2 + sa_icv s <= zlen esp -> open_ c s esp = Some pt -> authentic c s esp pt.
Proof.
  intros OK HL HO. pose proof (sa_icv_range s OK) as RI. destruct OK as (_ & _ & _ & _ & _ & H).
  apply open_authentic; auto; try lia; unfold hmac_part in H; destruct (sa_enc s); intuition (try discriminate; try congruence; try lia).
  all: match goal with HH : is_hmac ?a = true, GG : is_aead ?a = true |- _ => destruct a; discriminate
       | HH : is_hmac ?a = true, GG : ?a = ANone |- _ => rewrite GG in HH; discriminate
       | HH : ?a = ANone, GG : is_aead ?a = true |- _ => rewrite HH in GG; discriminate | _ => idtac end.
Qed.

Lemma trailer_inv pt pl nh : 2 <= zlen pt -> 0 <= zget pt (zlen pt - 2) -> trailer pt = Some (pl, nh) -> unpadded pt pl nh.
Proof.
  intros L2 P0 H. unfold trailer in H. set (n := zlen pt) in *. set (pad := zget pt (n - 2)) in *.
  destruct (Z.ltb_spec n (pad + 2)); [discriminate|].
  destruct (leqb (slice pt (Z.to_nat (n - 2 - pad)) (Z.to_nat pad)) (padding pad)) eqn:EL; [|discriminate]. apply leqb_eq in EL.
  injection H as <- <-. exists (Z.to_nat pad). change (map _ (seq 0 (Z.to_nat pad))) with (padding pad). rewrite <- EL.
  assert (T2 : skipn (Z.to_nat (n - 2)) pt = [pad; zget pt (n - 1)]).
  { unfold pad, zget, n, zlen in *. replace (Z.to_nat (Z.of_nat (length pt) - 2)) with (length pt - 2)%nat by lia.
    replace (Z.to_nat (Z.of_nat (length pt) - 1)) with (S (length pt - 2))%nat by lia. set (k := (length pt - 2)%nat).
    assert (LK : length (skipn k pt) = 2%nat) by (rewrite skipn_length; lia).
    assert (NK : forall m (l : list Z) j, nth (m + j) l 0 = nth j (skipn m l) 0).
    { clear. induction m as [|m IH]; intros [|x l] j; cbn; try reflexivity; [destruct j; reflexivity|apply IH]. }
    replace k with (k + 0)%nat at 2 by lia. replace (S k) with (k + 1)%nat by lia. rewrite !NK.
    destruct (skipn k pt) as [|x [|y [|z t]]]; cbn in LK; try lia. reflexivity. }
  rewrite <- (firstn_skipn (Z.to_nat (n - 2 - pad)) pt) at 1. f_equal.
  unfold slice. rewrite <- (firstn_skipn (Z.to_nat pad) (skipn (Z.to_nat (n - 2 - pad)) pt)) at 1. f_equal.
  rewrite skipn_skipn. replace (Z.to_nat pad + Z.to_nat (n - 2 - pad))%nat with (Z.to_nat (n - 2)) by lia.
  rewrite T2. replace (Z.of_nat (Z.to_nat pad)) with pad by lia. reflexivity.
Qed.

Lemma hlen_range v : 20 <= hlen v.
Proof. unfold hlen. destruct (Z.ltb_spec (ihl_bytes v) 20); lia. Qed.
Lemma hdr_ck_inv F v l0 l1 p c0 c1 r o : iphdr_set_checksum (hdr F v l0 l1 p c0 c1 ++ r) = Some o ->
  exists d0 d1, o = hdr F v l0 l1 p d0 d1 ++ r.
Proof.
  intros H. unfold iphdr_set_checksum in H.
  destruct (mread (hdr F v l0 l1 p c0 c1 ++ r) 0 1); [|discriminate]. cbn [obind] in H. rewrite hdr_put10 in H. cbn [obind] in H.
  destruct (mread _ 0 _); [|discriminate]. cbn [obind] in H. destruct (fold_loop 2 _); [|discriminate]. cbn [obind] in H.
  rewrite hdr_put10 in H. injection H as <-. eexists _, _. reflexivity.
Qed.

(** Everything reception can do with one frame. *)
Lemma unwrap_sa_inv c ip esp s s' r : zlen ip >= 20 -> sa_ok s -> unwrap_sa c ip esp s = Some (s', r) ->
  (s' = s /\ r = UDrop) \/
  (exists pt, (sa_icv s <> 0 -> esp_replay_check (sa_rep s) (pkt_seq esp) = Some true) /\
     8 + iv_len (sa_enc s) + 2 + sa_icv s <= zlen esp /\
     open_ c s esp = Some pt /\ authentic c s esp pt /\ s' = after s (pkt_seq esp) /\
     match r with
     | UDrop => trailer pt = None
     | UOk out => exists pl nh F v l0 l1 p c0 c1 d0 d1, trailer pt = Some (pl, nh) /\ firstn 20 ip = hdr F v l0 l1 p c0 c1 /\
         let L := u16 (20 + zlen pl) in out = hdr F v (b1 L) (b0 L) nh d0 d1 ++ pl
     end).
Proof.
  intros L20 OK H. unfold unwrap_sa in H. fold (pkt_seq esp) in H.
  match type of H with obind ?m _ = _ => destruct m as [ok|] eqn:EO end; [|discriminate]. cbn [obind] in H.
  destruct ok; cbn [negb] in H; [|left; split; congruence].
  destruct (Z.ltb_spec (zlen esp) (8 + iv_len (sa_enc s) + 2 + sa_icv s)); [left; split; congruence|].
  destruct (open_ c s esp) as [pt|] eqn:EOP; [|left; split; congruence].
  right. exists pt.
  match type of H with obind ?m _ = _ => destruct m as [s1|] eqn:ES end; [|discriminate]. cbn [obind] in H.
  assert (CK : sa_icv s <> 0 -> esp_replay_check (sa_rep s) (pkt_seq esp) = Some true).
  { intros NZ. destruct (Z.eqb_spec (sa_icv s) 0); [contradiction|exact EO]. }
  assert (AF : s1 = after s (pkt_seq esp)).
  { unfold after. destruct (sa_icv s =? 0); [congruence|]. destruct (esp_replay_commit (sa_rep s) (pkt_seq esp)); [cbn [obind] in ES; congruence|discriminate]. }
  split; [exact CK|]. split; [lia|]. split; [reflexivity|]. split; [apply ok_open; [exact OK|lia|exact EOP]|].
  destruct (trailer pt) as [[pl nh]|] eqn:ET.
  - destruct (hdr_ex ip ltac:(lia)) as (F & v & l0 & l1 & p & c0 & c1 & rr & ->). rewrite hdr_firstn in H.
    rewrite hdr_put2 in H. cbn [obind] in H. rewrite hdr_put9 in H. cbn [obind] in H.
    destruct (iphdr_set_checksum _) as [o|] eqn:EK; [|discriminate]. cbn [obind] in H. injection H as <- <-.
    apply hdr_ck_inv in EK. destruct EK as (d0 & d1 & ->). split; [exact AF|].
    exists pl, nh, F, v, l0, l1, p, c0, c1, d0, d1. rewrite hdr_firstn. split; [reflexivity|]. split; [reflexivity|].
    cbv zeta. rewrite hdr_zlen. reflexivity.
  - split; [congruence|]. replace r with UDrop by congruence. reflexivity.
Qed.

Lemma free_not_covers src dst : ~ covers sa_free src dst.
Proof. intros (H & _). apply H. reflexivity. Qed.
Lemma byte_in l i : Forall byte l -> 0 <= zget l i.
Proof.
  intros H. unfold zget. destruct (Nat.ltb_spec (Z.to_nat i) (length l)).
  - pose proof (Forall_forall byte l) as (X & _). specialize (X H (nth (Z.to_nat i) l 0) (nth_In _ _ H0)). unfold byte in X. lia.
  - rewrite nth_overflow by lia. lia.
Qed.
Lemma authentic_plain c s esp pt : crypto_ok c -> Forall byte esp -> sa_ok s -> authentic c s esp pt -> 2 <= zlen pt /\ Forall byte pt.
Proof.
  intros (_ & _ & _ & LC & LG) HB OK (body & icv & EQ & LI & LB & H).
  set (ct := skipn (Z.to_nat (8 + iv_len (sa_enc s))) body) in *. pose proof (iv_len_range (sa_enc s)).
  assert (LCT : 2 <= zlen ct) by (unfold ct; rewrite zlen_skipn; lia).
  assert (BCT : Forall byte ct).
  { subst esp. apply Forall_app in HB. destruct HB as (HB & _). unfold ct. rewrite <- (firstn_skipn (Z.to_nat (8 + iv_len (sa_enc s))) body) in HB.
    apply Forall_app in HB. apply HB. }
  destruct (sa_enc s).
  - destruct H as (_ & ->). auto.
  - destruct H as (_ & H). destruct (LC _ _ _ _ _ H) as (-> & X). auto.
  - destruct H as (_ & H). destruct (LC _ _ _ _ _ H) as (-> & X). auto.
  - destruct (LG _ _ _ _ _ _ H) as (-> & X). auto.
  - destruct H as (_ & ->). auto.
Qed.

(** C77.  Reception of one frame for this host, whatever it contains: a frame
    that is not ESP goes up as it is; an ESP frame is either dropped and leaves
    every association as it was, or is authentic under the first association with
    its SPI and addresses and has a number the window accepts; only then does the
    window move, and what goes up is the authenticated payload without its
    padding, and nothing else. *)
Theorem esp_accepts_only_authentic : forall c ins f ins' r,
  crypto_ok c -> Forall byte f -> wellformed f -> zlen f <= 1536 -> table_ok ins ->
  esp_in c false ins f = Some (ins', r) ->
  exists h, strip_options f = Some h /\ delivered f h /\
    let d := skipn 14 h in let esp := esp_part d in
    (proto h <> 50 -> r = Some h /\ ins' = ins) /\
    (proto h = 50 ->
       (r = None /\ ins' = ins) \/
       exists l1 s l2 pt, ins = l1 ++ s :: l2 /\ chosen (has_spi (pkt_spi esp)) l1 s (src_of d) (dst_of d) /\
         authentic c s esp pt /\ (sa_icv s <> 0 -> esp_replay_check (sa_rep s) (pkt_seq esp) = Some true) /\
         ins' = l1 ++ after s (pkt_seq esp) :: l2 /\
         match r with
         | Some g => exists pl nh, unpadded pt pl nh /\ decapsulated h g pl nh
         | None => forall pl nh, ~ unpadded pt pl nh
         end).
Proof.
  intros c ins f ins' r LC HB WF MTU TO H.
  destruct (strip_spec f HB WF) as (h & ES & D). exists h. split; [exact ES|]. split; [exact D|]. intros d esp.
  unfold esp_in in H. replace (1536 <? zlen f) with false in H by lia. rewrite andb_false_r, ES in H. cbn [obind] in H.
  change (zget h 23) with (proto h) in H.
  pose proof D as (DL & D14 & DT & _ & DP & _). pose proof WF as (W1 & _ & W3 & W4 & _).
  assert (LH : 34 <= zlen h) by lia.
  assert (LD : zlen d = zlen h - 14) by (unfold d, zlen in *; rewrite skipn_length; lia).
  assert (BH : Forall byte (skipn 34 h)).
  { unfold part in DP. change (Z.to_nat 34) with 34%nat in DP. rewrite firstn_all2 in DP by (rewrite skipn_length; unfold zlen in *; lia).
    rewrite DP. apply Forall_firstn, Forall_skipn. exact HB. }
  assert (SK : skipn 20 d = skipn 34 h) by (unfold d; rewrite skipn_skipn; reflexivity).
  assert (BE : Forall byte esp) by (unfold esp, esp_part; rewrite SK; apply Forall_firstn; exact BH).
  destruct (Z.eqb_spec (proto h) 50) as [P|P]; cbn [negb] in H; (split; [intros P'|intros P']); try contradiction; try (split; congruence).
  clear P'.
  destruct (esp_unwrap c ins (skipn 14 h)) as [[ins1 u]|] eqn:EU; [|discriminate]. cbn [obind] in H. injection H as <- <-.
  fold d in EU. unfold esp_unwrap in EU. destruct (Z.ltb_spec (zlen d) 4); [lia|].
  destruct (Z.ltb_spec (rd16 d 2) 20); cbn [orb] in EU; [left; injection EU as <- <-; auto|].
  destruct (Z.ltb_spec (zlen d) (rd16 d 2)); [left; injection EU as <- <-; auto|].
  destruct (Z.ltb_spec (rd16 d 2 - 20) 8); [left; injection EU as <- <-; auto|].
  assert (EM : mread d 20 (rd16 d 2 - 20) = Some esp).
  { unfold mread. replace ((0 <=? 20) && (0 <=? rd16 d 2 - 20) && (20 + (rd16 d 2 - 20) <=? zlen d)) with true by lia. reflexivity. }
  rewrite EM in EU. cbn [obind] in EU. fold (pkt_spi esp) in EU. fold (src_of d) in EU. fold (dst_of d) in EU.
  destruct (spi_valid (pkt_spi esp)); cbn [negb] in EU; [|left; injection EU as <- <-; auto].
  destruct (with_first (in_match (pkt_spi esp) (src_of d) (dst_of d)) (unwrap_sa c d esp) ins) as [[ins2 u2]|] eqn:EW; [|discriminate].
  cbn [obind] in EU. injection EU as <- <-. apply with_first_inv in EW. destruct u2 as [u|]; [|left; destruct EW as (-> & _); auto].
  destruct EW as (l1 & s & l2 & t & -> & -> & HM & HN & HU). apply in_match_iff in HM. destruct HM as (HS & HC).
  destruct (TO s) as [-> |OK]; [apply in_app_iff; right; left; reflexivity|exfalso; exact (free_not_covers _ _ HC)|].
  apply unwrap_sa_inv in HU; [|lia|exact OK]. destruct HU as [(-> & ->)|(pt & CK & LE & HO & AU & -> & HR)]; [left; auto|].
  right. exists l1, s, l2, pt. split; [reflexivity|]. split.
  { split; [exact HS|]. split; [exact HC|]. intros x Hx T. apply in_match_iff in T. rewrite (HN x Hx) in T. discriminate. }
  split; [exact AU|]. split; [exact CK|]. split; [reflexivity|].
  destruct (authentic_plain c s esp pt LC BE OK AU) as (L2 & BP).
  destruct u as [out|].
  - destruct HR as (pl & nh & F & v & l0 & m1 & p & c0 & c1 & d0 & d1 & ET & EF & EO). cbv zeta in EO.
    exists pl, nh. split; [apply trailer_inv; [exact L2|apply byte_in; exact BP|exact ET]|].
    assert (LF : zlen (firstn 14 h) = 14) by (unfold zlen in *; rewrite firstn_length; lia).
    assert (EH : h = firstn 14 h ++ hdr F v l0 m1 p c0 c1 ++ skipn 34 h).
    { rewrite <- (firstn_skipn 14 h) at 1. f_equal. fold d. rewrite <- (firstn_skipn 20 d) at 1. rewrite EF, SK. reflexivity. }
    assert (LP : 0 <= u16 (20 + zlen pl) < 65536) by (unfold u16; apply Z.mod_pos_bound; lia).
    subst out. unfold decapsulated. remember (u16 (20 + zlen pl)) as L eqn:EL. clear EL. set (e := firstn 14 h) in *. clearbody e. rewrite EH. clear EH EM ES.
    assert (E14 : length e = 14%nat) by (unfold zlen in LF; lia). clear LF.
    do 14 (destruct e as [|? e]; [discriminate|]). destruct e; [|discriminate].
    split; [reflexivity|]. split; [reflexivity|]. split; [reflexivity|]. split.
    { unfold rd16. change (zget _ 16) with (b1 L). change (zget _ (16 + 1)) with (b0 L). apply rd16_be. exact LP. }
    intros k K K1 K2 K3 K4 K5.
    assert (IN : In k [14;15;18;19;20;21;22;26;27;28;29;30;31;32;33]) by (cbn; lia).
    repeat (match goal with HH : In k _ |- _ => destruct HH as [<- |HH]; [reflexivity|] end). contradiction.
  - intros pl nh (n & E). assert (n < 256)%nat.
    { rewrite E in BP. apply Forall_app in BP. destruct BP as (_ & BP). apply Forall_app in BP. destruct BP as (_ & BP). inversion BP; subst.
      unfold byte in *. lia. }
    rewrite E in HR. replace (map (fun i => Z.of_nat i + 1) (seq 0 n)) with (padding (Z.of_nat n)) in HR by (unfold padding; rewrite Nat2Z.id; reflexivity).
    rewrite trailer_body in HR by lia. discriminate.
Qed.
Print Assumptions esp_accepts_only_authentic.
