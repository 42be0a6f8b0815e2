From Verif Require Import Base ListUtil Bits Checksum ChecksumProps Route RouteProps Arp ArpProps HttpUrl Forward ForwardSpec.
Local Ltac Zify.zify_post_hook ::= idtac.

(** ** Bytes *)
Lemma zget_byte d i : Forall byte d -> 0 <= zget d i < 256.
Proof.
  intros H. unfold zget. destruct (Nat.lt_ge_cases (Z.to_nat i) (length d)) as [HL|HL].
  - rewrite Forall_forall in H. apply (H _ (nth_In d 0 HL)).
  - rewrite nth_overflow by lia. lia.
Qed.
Lemma nth_skipn_ {A} (l : list A) d : forall a j, nth j (skipn a l) d = nth (a + j) l d.
Proof.
  induction l as [|x l IH]; intros a j; [rewrite skipn_nil; destruct (a + j)%nat, j; reflexivity|].
  destruct a; [reflexivity|]. cbn. apply IH.
Qed.
Lemma nth_firstn_ {A} d : forall (l : list A) k j, (j < k)%nat -> nth j (firstn k l) d = nth j l d.
Proof.
  induction l as [|x l IHl]; intros k j Hj; [destruct k, j; reflexivity|].
  destruct k; [lia|]. destruct j; [reflexivity|]. cbn. apply IHl. lia.
Qed.
Lemma zget_skipn f a i : 0 <= i -> zget (skipn a f) i = zget f (Z.of_nat a + i).
Proof. intros H. unfold zget. rewrite nth_skipn_. f_equal. lia. Qed.
Lemma zget_firstn f n i : 0 <= i < Z.of_nat n -> zget (firstn n f) i = zget f i.
Proof. intros H. unfold zget. apply nth_firstn_. lia. Qed.
Lemma zget_app1 a b i : 0 <= i < zlen a -> zget (a ++ b) i = zget a i.
Proof. intros H. unfold zget, zlen in *. apply app_nth1. lia. Qed.
Lemma zget_app2 a b i : zlen a <= i -> zget (a ++ b) i = zget b (i - zlen a).
Proof. intros H. unfold zget, zlen in *. rewrite app_nth2 by lia. f_equal. lia. Qed.
Lemma zlen_firstn {A} (f : list A) n : 0 <= n <= zlen f -> zlen (firstn (Z.to_nat n) f) = n.
Proof. intros H. unfold zlen in *. rewrite firstn_length. lia. Qed.
Lemma zlen_skipn {A} (f : list A) n : 0 <= n <= zlen f -> zlen (skipn (Z.to_nat n) f) = zlen f - n.
Proof. intros H. unfold zlen in *. rewrite skipn_length. lia. Qed.
Lemma zget_part f o n i : 0 <= o -> 0 <= i < n -> zget (part f o n) i = zget f (o + i).
Proof. intros Ho Hi. unfold part. rewrite zget_firstn by lia. rewrite zget_skipn by lia. f_equal. lia. Qed.
Lemma zlen_part (f : list Z) o n : 0 <= o -> 0 <= n -> o + n <= zlen f -> zlen (part f o n) = n.
Proof. intros. unfold part, zlen in *. rewrite firstn_length, skipn_length. lia. Qed.
Lemma zget_ext a b : zlen a = zlen b -> (forall i, 0 <= i < zlen a -> zget a i = zget b i) -> a = b.
Proof.
  intros HL H. apply (nth_ext a b 0 0); [unfold zlen in *; lia|]. intros n Hn.
  specialize (H (Z.of_nat n)). unfold zget, zlen in *. rewrite Nat2Z.id in H. apply H. lia.
Qed.
Lemma Forall_skipn {A} (P : A -> Prop) l n : Forall P l -> Forall P (skipn n l).
Proof. intros H. rewrite <- (firstn_skipn n l) in H. apply Forall_app in H. apply H. Qed.
Lemma Forall_firstn {A} (P : A -> Prop) l n : Forall P l -> Forall P (firstn n l).
Proof. intros H. rewrite <- (firstn_skipn n l) in H. apply Forall_app in H. apply H. Qed.
Lemma part_bytes f o n : Forall byte f -> Forall byte (part f o n).
Proof. intros. apply Forall_firstn, Forall_skipn. assumption. Qed.

Lemma mwrite_spec (m : list Z) pos bs : 0 <= pos -> pos + zlen bs <= zlen m -> exists m', mwrite m pos bs = Some m' /\
  zlen m' = zlen m /\ (forall i, 0 <= i -> zget m' i = if (pos <=? i) && (i <? pos + zlen bs) then zget bs (i - pos) else zget m i) /\
  (Forall byte m -> Forall byte bs -> Forall byte m').
Proof.
  intros H0 H1. unfold mwrite. destruct ((0 <=? pos) && (pos + zlen bs <=? zlen m)) eqn:E; [|lia].
  pose proof (zlen_nonneg bs) as NB.
  eexists. split; [reflexivity|]. split; [|split].
  - rewrite !zlen_app, zlen_firstn, zlen_skipn by lia. lia.
  - intros i Hi. destruct ((pos <=? i) && (i <? pos + zlen bs)) eqn:Q.
    + rewrite zget_app2; rewrite zlen_firstn by lia; [|lia]. rewrite zget_app1 by lia. reflexivity.
    + destruct (Z.ltb_spec i pos).
      * rewrite zget_app1 by (rewrite zlen_firstn; lia). apply zget_firstn. lia.
      * rewrite zget_app2; rewrite zlen_firstn by lia; [|lia]. rewrite zget_app2 by lia. rewrite zget_skipn by lia. f_equal. lia.
  - intros B1 B2. apply Forall_app. split; [apply Forall_firstn; assumption|]. apply Forall_app. split; [assumption|]. apply Forall_skipn. assumption.
Qed.
Lemma mread_part (m : list Z) o n : 0 <= o -> 0 <= n -> o + n <= zlen m -> mread m o n = Some (part m o n).
Proof. intros. unfold mread, part. destruct ((0 <=? o) && (0 <=? n) && (o + n <=? zlen m)) eqn:E; [reflexivity|lia]. Qed.
Lemma rd1_in m i : 0 <= i < zlen m -> rd1 m i = Some (zget m i).
Proof.
  intros H. unfold rd1. rewrite mread_part by lia. cbn [obind]. f_equal.
  change (nth 0 (part m i 1) 0) with (zget (part m i 1) 0). rewrite zget_part by lia. f_equal. lia.
Qed.

Lemma hlen_ihl f : Forall byte f -> hlen_of f = ihl f.
Proof.
  intros H. pose proof (zget_byte f 14 H). unfold hlen_of, ihl. change 15 with (Z.ones 4).
  rewrite Z.land_ones by lia. rewrite Z.shiftl_mul_pow2 by lia. change (2 ^ 4) with 16. lia.
Qed.
Lemma ihlb_ihl f : Forall byte f -> Z.land (zget f 14) 15 * 4 = ihl f.
Proof.
  intros H. pose proof (zget_byte f 14 H). unfold ihl. change 15 with (Z.ones 4).
  rewrite Z.land_ones by lia. change (2 ^ 4) with 16. lia.
Qed.
Lemma ihl_range f : Forall byte f -> 0 <= ihl f <= 60.
Proof. intros H. unfold ihl. pose proof (Z.mod_pos_bound (zget f 14) 16 ltac:(lia)). lia. Qed.
Lemma rd16_word f o : rd16 f o = word f o.
Proof. reflexivity. Qed.
Lemma rd32_addr f o : rd32 f o = addr f o.
Proof. unfold rd32, addr, word. replace (o + 2 + 1) with (o + 3) by lia. lia. Qed.
Lemma word_range f o : Forall byte f -> 0 <= word f o < 65536.
Proof. intros H. unfold word. pose proof (zget_byte f o H). pose proof (zget_byte f (o + 1) H). lia. Qed.
Lemma addr_range f o : Forall byte f -> 0 <= addr f o < 4294967296.
Proof. intros H. unfold addr. pose proof (word_range f o H). pose proof (word_range f (o + 2) H). lia. Qed.

(** ** Header checksum *)
Lemma ocv_wsum b : bytes b -> (ones_complement_valid b <-> wsum b <> 0 /\ wsum b mod 65535 = 0).
Proof.
  intros H. destruct (be_number_wsum b H) as (M & Z0 & _). unfold ones_complement_valid.
  apply mod_same in M. rewrite M. tauto.
Qed.
Lemma verify_iff ip : bytes ip -> 1 <= zlen ip -> zget ip 0 / 16 = 4 -> 20 <= 4 * (zget ip 0 mod 16) -> 4 * (zget ip 0 mod 16) <= zlen ip ->
  exists b, iphdr_verify_checksum ip = Some b /\ (b = true <-> ones_complement_valid (firstn (Z.to_nat (4 * (zget ip 0 mod 16))) ip)).
Proof.
  intros HB HL HV H20 Hle. unfold iphdr_verify_checksum. rewrite mread_part by lia. cbn [obind].
  rewrite zget_part by lia. change (0 + 0) with 0. rewrite shr by lia. change (2 ^ 4) with 16. rewrite HV. change (negb (4 =? 4)) with false. cbv iota.
  assert (EH : ihl_bytes (zget ip 0) = 4 * (zget ip 0 mod 16)).
  { unfold ihl_bytes. change 15 with (Z.ones 4). rewrite Z.land_ones by lia. change (2 ^ 4) with 16. lia. }
  rewrite EH. set (h := 4 * (zget ip 0 mod 16)) in *. assert (Hh : h <= 60) by (subst h; pose proof (Z.mod_pos_bound (zget ip 0) 16 ltac:(lia)); lia).
  destruct (h <? 20) eqn:Q; [lia|]. rewrite mread_part by lia. cbn [obind].
  unfold part. cbn [skipn Z.to_nat]. set (hd := firstn (Z.to_nat h) ip).
  assert (BH : bytes hd) by (apply Forall_firstn; assumption).
  assert (LH : zlen hd = h) by (apply zlen_firstn; lia).
  pose proof (wsum_bound hd BH) as WB. rewrite LH in WB.
  assert (U : 65535 * ((h + 1) / 2) < 4294967296) by (assert ((h + 1) / 2 <= 61) by (apply Z.div_le_upper_bound; lia); lia).
  rewrite sum_words_spec by (assumption || lia). rewrite Z.add_0_l.
  destruct (fold_exits (wsum hd) ltac:(lia)) as (r & E & B & C & D). rewrite E. cbn [obind].
  eexists. split; [reflexivity|]. rewrite Z.eqb_eq. rewrite ocv_wsum by assumption.
  unfold u16. rewrite (Z.mod_small r) by lia. apply mod_same in C. rewrite <- C. split.
  - intros ->. split; [intros H0; destruct D as [_ D]; specialize (D H0); lia|reflexivity].
  - intros [N M]. destruct (Z.eq_dec r 65535); [assumption|]. rewrite Z.mod_small in M by lia. tauto.
Qed.

(** The header-checksum setter on the IP part of a frame. *)
Definition set_ck (f : list Z) : option (list Z) := do ip <- iphdr_set_checksum (skipn 14 f); Some (firstn 14 f ++ ip).
Lemma set_ck_spec f : Forall byte f -> 34 <= zlen f -> zget f 14 / 16 = 4 -> 20 <= ihl f -> 14 + ihl f <= zlen f ->
  exists g, set_ck f = Some g /\ zlen g = zlen f /\
    (forall k, 0 <= k -> k <> 24 -> k <> 25 -> zget g k = zget f k) /\
    ones_complement_valid (part g 14 (ihl g)) /\ Forall byte g.
Proof.
  intros HB HL HV H20 HI. pose proof (ihl_range f HB) as IR.
  assert (LS : zlen (skipn 14 f) = zlen f - 14) by (change 14%nat with (Z.to_nat 14); apply zlen_skipn; lia).
  assert (LF : zlen (firstn 14 f) = 14) by (change 14%nat with (Z.to_nat 14); apply zlen_firstn; lia).
  assert (Z0 : zget (skipn 14 f) 0 = zget f 14) by (rewrite zget_skipn by lia; reflexivity).
  assert (EH : ihl_bytes (zget (skipn 14 f) 0) = ihl f).
  { rewrite Z0. unfold ihl_bytes, ihl. change 15 with (Z.ones 4). rewrite Z.land_ones by lia. change (2 ^ 4) with 16. lia. }
  destruct (ip_header_checksum_verifies (skipn 14 f)) as (ip & E & L & S & V).
  { apply Forall_skipn. assumption. }
  { lia. }
  { rewrite EH. lia. }
  unfold set_ck. rewrite E. cbn [obind]. exists (firstn 14 f ++ ip). split; [reflexivity|].
  assert (SK : forall k, 0 <= k -> k <> 24 -> k <> 25 -> zget (firstn 14 f ++ ip) k = zget f k).
  { intros k K0 K1 K2. destruct (Z.ltb_spec k 14).
    - rewrite zget_app1 by lia. apply zget_firstn. lia.
    - rewrite zget_app2 by lia. rewrite S by lia. rewrite zget_skipn by lia. f_equal. lia. }
  assert (BI : Forall byte ip).
  { unfold iphdr_set_checksum in E. rewrite mread_part in E by lia. cbn [obind] in E.
    destruct (mwrite_spec (skipn 14 f) 10 (Checksum.be16 0)) as (m & Em & Lm & _ & Bm); [lia|change (zlen (Checksum.be16 0)) with 2; lia|].
    unfold put16 in E. rewrite Em in E. cbn [obind] in E.
    destruct (mread m 0 _) as [hdr|]; [|discriminate]. cbn [obind] in E. destruct (fold_loop 2 _) as [s|]; [|discriminate]. cbn [obind] in E.
    destruct (mwrite_spec m 10 (Checksum.be16 (not16 s))) as (m2 & Em2 & _ & _ & Bm2); [lia|change (zlen (Checksum.be16 (not16 s))) with 2; lia|].
    assert (m2 = ip) by congruence. subst m2. apply Bm2; [|apply be16_bytes]. apply Bm; [|apply be16_bytes]. apply Forall_skipn. assumption. }
  split; [rewrite zlen_app; lia|]. split; [exact SK|].
  assert (I2 : ihl (firstn 14 f ++ ip) = ihl f) by (unfold ihl; rewrite SK by lia; reflexivity).
  split; [|apply Forall_app; split; [apply Forall_firstn; assumption|assumption]].
  rewrite I2. unfold part. change (Z.to_nat 14) with 14%nat. rewrite skipn_app. 
  assert (N14 : length (firstn 14 f) = 14%nat) by (unfold zlen in LF; lia).
  rewrite (skipn_all2 (n := 14) (firstn 14 f)) by lia. rewrite N14, Nat.sub_diag. cbn [skipn app].
  assert (ZI : zget ip 0 = zget f 14) by (rewrite S by lia; exact Z0).
  destruct (verify_iff ip BI) as (b & Eb & Vb); [lia|rewrite ZI; lia|rewrite ZI; unfold ihl in H20; lia|rewrite ZI; unfold ihl in HI; lia|].
  rewrite V in Eb; [|rewrite Z0, shr by lia; exact HV|rewrite EH; exact H20].
  assert (b = true) by congruence. subst b. destruct Vb as [Vb _]. specialize (Vb eq_refl).
  rewrite ZI in Vb. exact Vb.
Qed.

Lemma dec_ttl_spec f : Forall byte f -> 34 <= zlen f -> zget f 14 / 16 = 4 -> 20 <= ihl f -> 14 + ihl f <= zlen f -> 2 <= zget f 22 ->
  exists g, dec_ttl f = Some g /\ zlen g = zlen f /\ zget g 22 = zget f 22 - 1 /\
    (forall k, 0 <= k -> k <> 22 -> k <> 24 -> k <> 25 -> zget g k = zget f k) /\
    ones_complement_valid (part g 14 (ihl g)) /\ Forall byte g.
Proof.
  intros HB HL HV H20 HI HT. pose proof (zget_byte f 22 HB) as TR. unfold dec_ttl.
  destruct (mwrite_spec f 22 [u8 (zget f 22 - 1)]) as (m & Em & Lm & Gm & Bm); [lia|rewrite zlen_cons, zlen_nil; lia|].
  rewrite Em. cbn [obind]. change (zlen [u8 (zget f 22 - 1)]) with 1 in *.
  assert (U : u8 (zget f 22 - 1) = zget f 22 - 1) by (unfold u8; apply Z.mod_small; lia).
  assert (SM : forall k, 0 <= k -> k <> 22 -> zget m k = zget f k).
  { intros k K0 K1. rewrite Gm by lia. destruct ((22 <=? k) && (k <? 22 + 1)) eqn:Q; [lia|reflexivity]. }
  assert (TM : zget m 22 = zget f 22 - 1) by (rewrite Gm by lia; cbn; exact U).
  destruct (set_ck_spec m) as (g & Eg & Lg & Sg & Vg & Bg).
  - apply Bm; [assumption|]. constructor; [unfold byte; lia|constructor].
  - lia.
  - rewrite SM by lia. assumption.
  - unfold ihl. rewrite SM by lia. exact H20.
  - unfold ihl. rewrite SM, Lm by lia. exact HI.
  - unfold set_ck in Eg. exists g. split; [exact Eg|]. split; [lia|]. split; [rewrite Sg by lia; exact TM|].
    split; [|split; assumption]. intros k K0 K1 K2 K3. rewrite Sg by lia. apply SM; lia.
Qed.

(** ** Options *)
Inductive from (f : list Z) : Z -> Z -> Prop :=
| from_refl o : from f o o
| from_nop o o' : o < 14 + ihl f -> zget f o = 1 -> from f (o + 1) o' -> from f o o'
| from_next o o' : o < 14 + ihl f -> zget f o <> 0 -> zget f o <> 1 -> from f (o + zget f (o + 1)) o' -> from f o o'.
Lemma opt_start_from f o : opt_start f o <-> from f 34 o.
Proof.
  split.
  - assert (T : forall a b, from f a b -> forall c, from f b c -> from f a c).
    { induction 1; intros c Hc; [assumption|eapply from_nop; eauto|eapply from_next; eauto]. }
    induction 1; [constructor|eapply T; [eassumption|apply from_nop; auto; constructor]|eapply T; [eassumption|apply from_next; auto; constructor]].
  - assert (G : forall a b, from f a b -> opt_start f a -> opt_start f b).
    { induction 1; intros HO; [assumption| |]; auto using os_nop, os_next. }
    intros H. apply (G _ _ H). constructor.
Qed.
Definition opt_fine (f : list Z) (o : Z) : Prop :=
  zget f o <> 131 /\ zget f o <> 137 /\
  (zget f o <> 0 -> zget f o <> 1 -> o + 1 < 14 + ihl f /\ 2 <= zget f (o + 1) /\ o + zget f (o + 1) <= 14 + ihl f).
Definition fine_from (f : list Z) (o : Z) : Prop := forall o', from f o o' -> o' < 14 + ihl f -> opt_fine f o'.
Lemma opts_loop_spec f : Forall byte f -> 14 + ihl f <= zlen f -> forall fuel o, 34 <= o -> 14 + ihl f - o <= Z.of_nat fuel ->
  exists b, opts_loop fuel f o (14 + ihl f) = Some b /\ (b = true <-> fine_from f o).
Proof.
  intros HB HE. pose proof (ihl_range f HB) as IR. set (e := 14 + ihl f) in *.
  induction fuel as [|fuel IH]; intros o Ho Hf; cbn [opts_loop]; destruct (Z.leb_spec e o).
  - exists true. split; [reflexivity|]. split; [intros _ o' F L|reflexivity]. inversion F; subst; subst e; lia.
  - lia.
  - exists true. split; [reflexivity|]. split; [intros _ o' F L|reflexivity]. inversion F; subst; subst e; lia.
  - rewrite rd1_in by lia. cbn [obind]. pose proof (zget_byte f o HB) as T. set (t := zget f o) in *.
    destruct (Z.eqb_spec t 0) as [T0|T0].
    { exists true. split; [reflexivity|]. split; [intros _ o' F L|reflexivity].
      inversion F; subst; [|subst t; congruence|subst t; congruence]. unfold opt_fine. fold t. lia. }
    destruct (Z.eqb_spec t 1) as [T1|T1].
    { destruct (IH (o + 1) ltac:(lia) ltac:(lia)) as (b & Eb & Hb). exists b. split; [exact Eb|]. rewrite Hb. split.
      - intros G o' F L. inversion F; subst.
        + unfold opt_fine. fold t. lia.
        + apply G; assumption.
        + subst t; congruence.
      - intros G o' F L. apply G; [|assumption]. apply from_nop; [subst e; lia|exact T1|exact F]. }
    destruct (Z.eqb_spec t 131) as [T2|T2]; cbn [orb].
    { exists false. split; [reflexivity|]. split; [discriminate|]. intros G. specialize (G o (from_refl f o)). unfold opt_fine in G. subst e t. lia. }
    destruct (Z.eqb_spec t 137) as [T3|T3].
    { exists false. split; [reflexivity|]. split; [discriminate|]. intros G. specialize (G o (from_refl f o)). unfold opt_fine in G. subst e t. lia. }
    destruct (Z.leb_spec e (o + 1)).
    { exists false. split; [reflexivity|]. split; [discriminate|]. intros G. specialize (G o (from_refl f o)). unfold opt_fine in G. subst e t. lia. }
    rewrite rd1_in by lia. cbn [obind]. pose proof (zget_byte f (o + 1) HB) as LB. set (l := zget f (o + 1)) in *.
    destruct (Z.ltb_spec l 2).
    { exists false. split; [reflexivity|]. split; [discriminate|]. intros G. specialize (G o (from_refl f o)). unfold opt_fine in G. subst e t l. lia. }
    assert (U : u8 (e - o) = e - o) by (unfold u8; apply Z.mod_small; subst e; lia). rewrite U.
    destruct (Z.ltb_spec (e - o) l).
    { exists false. split; [reflexivity|]. split; [discriminate|]. intros G. specialize (G o (from_refl f o)). unfold opt_fine in G. subst e t l. lia. }
    destruct (IH (o + l) ltac:(lia) ltac:(lia)) as (b & Eb & Hb). exists b. split; [exact Eb|]. rewrite Hb. split.
    + intros G o' F L. inversion F; subst.
      * unfold opt_fine. fold t l e. lia.
      * subst t; congruence.
      * apply G; assumption.
    + intros G o' F L. apply G; [|assumption]. apply from_next; [subst e; lia|exact T0|exact T1|exact F].
Qed.
Lemma fine_iff f : fine_from f 34 <-> ~ source_routed f /\ options_ok f.
Proof.
  unfold fine_from, opt_fine, source_routed, options_ok. split.
  - intros G. split.
    + intros (o & O1 & O2 & O3). apply opt_start_from in O1. specialize (G o O1 O2). tauto.
    + intros o O1 O2. apply opt_start_from in O1. specialize (G o O1 O2). tauto.
  - intros [N K] o' F L. apply opt_start_from in F. split; [|split].
    + intros E. apply N. exists o'. auto.
    + intros E. apply N. exists o'. auto.
    + apply K; assumption.
Qed.
Lemma no_options_fine f : ihl f <= 20 -> fine_from f 34.
Proof. intros H o' F L. inversion F; subst; lia. Qed.

(** ** Address classes *)
Local Ltac Zify.zify_post_hook ::= Z.div_mod_to_equations.
Lemma loopback_iff a : 0 <= a < 4294967296 -> in_loopback a = true <-> loopback a.
Proof.
  intros H. unfold in_loopback, loopback. change 4278190080 with (4294967296 - 2 ^ 24). rewrite land_netmask by lia.
  change (2 ^ 24) with 16777216. lia.
Qed.
Lemma multicast_iff a : 0 <= a < 4294967296 -> ip_is_multicast a = true <-> multicast a.
Proof.
  intros H. unfold ip_is_multicast, multicast. change 4026531840 with (4294967296 - 2 ^ 28) at 1. rewrite land_netmask by lia.
  change (2 ^ 28) with 268435456. lia.
Qed.
Lemma link_local_iff a : 0 <= a < 4294967296 -> (Z.land a 4294901760 =? 2851995648) = true <-> link_local a.
Proof.
  intros H. unfold link_local. change 4294901760 with (4294967296 - 2 ^ 16). rewrite land_netmask by lia.
  change (2 ^ 16) with 65536. lia.
Qed.
Local Ltac Zify.zify_post_hook ::= idtac.
Lemma is_loop_iff w i : is_loopback_if (w_lb w) i = true <-> is_loop w i.
Proof. unfold is_loopback_if, is_loop. destruct (w_lb w); cbn; rewrite ?Z.eqb_eq; intuition discriminate. Qed.

Lemma in_nth {A} (l : list A) x : In x l <-> exists i, 0 <= i /\ nth_error l (Z.to_nat i) = Some x.
Proof.
  split.
  - intros H. apply In_nth_error in H. destruct H as [n H]. exists (Z.of_nat n). rewrite Nat2Z.id. split; [lia|assumption].
  - intros (i & _ & H). eapply nth_error_In. eassumption.
Qed.
Lemma broadcast_iff w a : ip_is_broadcast (w_confs w) a = true <-> broadcast w a.
Proof.
  unfold ip_is_broadcast, broadcast. destruct (Z.eqb_spec a 4294967295) as [E|E].
  - split; [intros _; left; assumption|reflexivity].
  - rewrite existsb_exists. split.
    + intros (c & HI & HC). right. apply in_nth in HI. destruct HI as (i & I0 & I1). exists i, c. unfold conf_bcast in HC.
      destruct (Z.eqb_spec (c_ip c) 0); [discriminate|]. destruct ((c_mask c =? 0) || (c_mask c =? 4294967295)) eqn:Q; [discriminate|].
      apply Z.eqb_eq in HC. split; [split; [exact I0|split; assumption]|]. split; [lia|]. split; [lia|]. exact HC.
    + intros [HX|(i & c & (I0 & I1 & I2) & M1 & M2 & HA)]; [lia|]. exists c. split; [apply in_nth; exists i; auto|].
      unfold conf_bcast. destruct (Z.eqb_spec (c_ip c) 0); [lia|]. destruct ((c_mask c =? 0) || (c_mask c =? 4294967295)) eqn:Q; [lia|].
      apply Z.eqb_eq. exact HA.
Qed.
Lemma own_iff w a : own_addr (w_confs w) a = true <-> own w a.
Proof.
  unfold own_addr, own. rewrite existsb_exists. split.
  - intros (c & HI & HC). apply in_nth in HI. destruct HI as (i & I0 & I1). exists i, c. apply andb_prop in HC as [C1 C2].
    split; [split; [exact I0|split; [exact I1|lia]]|lia].
  - intros (i & c & (I0 & I1 & I2) & <-). exists c. split; [apply in_nth; exists i; auto|]. lia.
Qed.
Lemma subnet_iff c a : ip_is_local_conf c a = true <-> in_subnet c a.
Proof.
  unfold ip_is_local_conf, in_subnet. destruct (c_mask c =? 0); rewrite Z.eqb_eq; [intuition|reflexivity].
Qed.
Lemma other_subnet_iff all i a : forall cs k, skipn (Z.to_nat k) all = cs -> 0 <= k ->
  (other_subnet cs k i a = true <-> exists j c, k <= j /\ nth_error all (Z.to_nat j) = Some c /\ c_ip c <> 0 /\ j <> i /\ in_subnet c a).
Proof.
  induction cs as [|c cs IH]; intros k HS Hk; cbn [other_subnet].
  - split; [discriminate|]. intros (j & c & J & HN & _). exfalso.
    assert (length all <= Z.to_nat k)%nat.
    { pose proof (skipn_length (Z.to_nat k) all) as L. rewrite HS in L. cbn in L. lia. }
    assert (HX : nth_error all (Z.to_nat j) = None) by (apply nth_error_None; lia). congruence.
  - assert (H1 : nth_error all (Z.to_nat k) = Some c).
    { rewrite <- (firstn_skipn (Z.to_nat k) all), HS. rewrite nth_error_app2; rewrite firstn_length; [|lia].
      assert (L : (Z.to_nat k < length all)%nat).
      { pose proof (skipn_length (Z.to_nat k) all) as L. rewrite HS in L. cbn in L. lia. }
      replace (Z.to_nat k - Nat.min (Z.to_nat k) (length all))%nat with 0%nat by lia. reflexivity. }
    assert (HS' : skipn (Z.to_nat (k + 1)) all = cs).
    { replace (Z.to_nat (k + 1)) with (1 + Z.to_nat k)%nat by lia. rewrite <- skipn_skipn, HS. reflexivity. }
    specialize (IH (k + 1) HS' ltac:(lia)). rewrite orb_true_iff, IH, !andb_true_iff, subnet_iff. split.
    + intros [[[A1 A2] A3]|(j & c' & J & R)]; [exists k, c|exists j, c'].
      * split; [lia|]. split; [exact H1|]. split; [lia|]. split; [lia|exact A3].
      * split; [lia|exact R].
    + intros (j & c' & J & N & N0 & N1 & N2). destruct (Z.eq_dec j k) as [-> |D].
      * left. assert (c' = c) by congruence. subst c'. split; [split; lia|exact N2].
      * right. exists j, c'. split; [lia|auto].
Qed.
Lemma rpf_iff w i f : Forall byte f -> rpf_drop w i (rd32 f 26) = true <-> martian w i f.
Proof.
  intros HB. rewrite rd32_addr. fold (src f). pose proof (addr_range f 26 HB) as AR. fold (src f) in AR. unfold rpf_drop, martian.
  rewrite !orb_true_iff, andb_true_iff, loopback_iff, link_local_iff, own_iff by assumption.
  rewrite (other_subnet_iff (w_confs w) i (src f) (w_confs w) 0) by (reflexivity || lia).
  rewrite negb_true_iff, <- not_true_iff_false, is_loop_iff.
  assert (E : (exists j c, 0 <= j /\ nth_error (w_confs w) (Z.to_nat j) = Some c /\ c_ip c <> 0 /\ j <> i /\ in_subnet c (src f)) <->
              (exists j c, conf_of w j c /\ j <> i /\ in_subnet c (src f))).
  { unfold conf_of, confs, w_confs. split; intros (j & c & H); exists j, c; tauto. }
  rewrite E. tauto.
Qed.
Lemma local_iff w f : fwd_is_local w (rd32 f 30) = true <-> for_us w f.
Proof. rewrite rd32_addr. unfold fwd_is_local, for_us, dst. rewrite !orb_true_iff, broadcast_iff, own_iff, Z.eqb_eq. tauto. Qed.
Lemma noneth_iff w i : is_noneth w i = false <-> ethernet w i.
Proof.
  unfold is_noneth, ethernet. destruct (nth_error (w_ifs w) (Z.to_nat i)) as [x|].
  - split; [intros H (y & E & N); congruence|]. intros H. destruct (i_noneth x) eqn:Q; [|reflexivity]. exfalso. apply H. exists x. auto.
  - split; [intros _ (y & E & _); discriminate|reflexivity].
Qed.
Lemma group_iff w i f : Forall byte f -> negb (is_noneth w i) && negb (Z.land (zget f 0) 1 =? 0) = true <-> l2_group w i f.
Proof.
  intros HB. unfold l2_group. rewrite andb_true_iff, negb_true_iff, noneth_iff. change 1 with (Z.ones 1) at 1. rewrite Z.land_ones by lia.
  change (2 ^ 1) with 2. pose proof (Z.mod_pos_bound (zget f 0) 2 ltac:(lia)). assert (negb (zget f 0 mod 2 =? 0) = true <-> zget f 0 mod 2 = 1) by lia. tauto.
Qed.

(** ** Acceptance *)
Lemma accept_spec w i f : Forall byte f -> exists b, ip_accept w i f = Some b /\ (b = true <-> acceptable w i f).
Proof.
  intros HB. unfold ip_accept, acceptable, wellformed. rewrite hlen_ihl by assumption. change (rd16 f 16) with (total f). change (rd16 f 20) with (word f 20). rewrite !rd32_addr.
  fold (src f) (dst f). pose proof (addr_range f 26 HB) as SR. pose proof (addr_range f 30 HB) as DR. fold (src f) in SR. fold (dst f) in DR.
  destruct (Z.ltb_spec (zlen f) 34); [exists false; split; [reflexivity|split; [discriminate|lia]]|].
  rewrite shr by lia. change (2 ^ 4) with 16.
  destruct (negb (zget f 14 / 16 =? 4) || (ihl f <? 20)) eqn:Q1; [exists false; split; [reflexivity|split; [discriminate|lia]]|].
  destruct (Z.ltb_spec (zlen f) (14 + ihl f)); [exists false; split; [reflexivity|split; [discriminate|lia]]|].
  destruct (Z.ltb_spec (total f) (ihl f)); [exists false; split; [reflexivity|split; [discriminate|lia]]|].
  destruct (Z.ltb_spec (zlen f - 14) (total f)); [exists false; split; [reflexivity|split; [discriminate|lia]]|].
  assert (Z0 : zget (skipn 14 f) 0 = zget f 14) by (rewrite zget_skipn by lia; reflexivity).
  assert (LS : zlen (skipn 14 f) = zlen f - 14) by (change 14%nat with (Z.to_nat 14); apply zlen_skipn; lia).
  destruct (verify_iff (skipn 14 f)) as (ck & Eck & Vck).
  { apply Forall_skipn. assumption. } { lia. } { rewrite Z0. lia. } { rewrite Z0. fold (ihl f). lia. } { rewrite Z0, LS. fold (ihl f). lia. }
  rewrite Eck. cbn [obind]. rewrite Z0 in Vck. fold (ihl f) in Vck. change (firstn (Z.to_nat (ihl f)) (skipn 14 f)) with (part f 14 (ihl f)) in Vck.
  destruct ck; cbn [negb]; [|exists false; split; [reflexivity|split; [discriminate|]]; intros H5; apply proj1 in H5; assert (HX : false = true) by (apply Vck; apply H5); discriminate].
  assert (OCV : ones_complement_valid (part f 14 (ihl f))) by (apply Vck; reflexivity). clear Vck.
  change 16383 with (Z.ones 14). rewrite Z.land_ones by lia. change (2 ^ 14) with 16384.
  destruct (Z.eqb_spec (word f 20 mod 16384) 0) as [HF|HF]; cbn [negb]; [|exists false; split; [reflexivity|split; [discriminate|tauto]]].
  destruct (ip_is_broadcast (w_confs w) (src f)) eqn:QB; cbn [orb].
  { exists false. split; [reflexivity|split; [discriminate|]]. apply broadcast_iff in QB. tauto. }
  assert (NB : ~ broadcast w (src f)) by (rewrite <- broadcast_iff; congruence). clear QB.
  destruct (ip_is_multicast (src f)) eqn:QM.
  { exists false. split; [reflexivity|split; [discriminate|]]. apply multicast_iff in QM; tauto. }
  assert (NM : ~ multicast (src f)) by (rewrite <- multicast_iff by assumption; congruence). clear QM.
  destruct ((src f =? 0) && negb (w_dhcp w)) eqn:QD.
  { exists false. split; [reflexivity|split; [discriminate|]]. intros H5. apply andb_prop in QD as [Q2 Q3]. destruct H5 as (_ & _ & _ & HD & _).
    rewrite HD in Q3 by lia. discriminate. }
  assert (ND : src f = 0 -> w_dhcp w = true).
  { intros E0. rewrite E0 in QD. destruct (w_dhcp w); [reflexivity|discriminate]. }
  destruct (negb (is_loopback_if (w_lb w) i) && (in_loopback (dst f) || in_loopback (src f))) eqn:QL.
  { exists false. split; [reflexivity|split; [discriminate|]]. intros H5. apply andb_prop in QL as [Q2 Q3]. destruct H5 as (_ & _ & _ & _ & HD & _).
    assert (NL : ~ is_loop w i) by (rewrite <- is_loop_iff; destruct (is_loopback_if (w_lb w) i); [discriminate|discriminate]).
    specialize (HD NL). apply orb_prop in Q3 as [Q3|Q3]; apply loopback_iff in Q3; tauto. }
  assert (NL : ~ is_loop w i -> ~ loopback (src f) /\ ~ loopback (dst f)).
  { rewrite <- is_loop_iff. intros N. destruct (is_loopback_if (w_lb w) i); [exfalso; apply N; reflexivity|]. cbn [negb andb] in QL.
    apply orb_false_elim in QL as [Q2 Q3]. rewrite <- !loopback_iff by assumption. split; congruence. }
  destruct (w_frecv w i f) eqn:QF; [exists false; split; [reflexivity|split; [discriminate|]]; intros H5; destruct H5 as (_ & _ & _ & _ & _ & HX & _); discriminate|].
  assert (W : forall X : Prop, (34 <= zlen f /\ zget f 14 / 16 = 4 /\ 20 <= ihl f <= total f /\ total f <= zlen f - 14 /\
     ones_complement_valid (part f 14 (ihl f)) /\ word f 20 mod 16384 = 0) /\
    ~ broadcast w (src f) /\ ~ multicast (src f) /\ (src f = 0 -> w_dhcp w = true) /\
    (~ is_loop w i -> ~ loopback (src f) /\ ~ loopback (dst f)) /\ false = false /\ X <-> X).
  { intros X. assert (zget f 14 / 16 = 4) by lia. assert (20 <= ihl f) by lia. tauto. }
  setoid_rewrite W. setoid_rewrite <- fine_iff.
  destruct (Z.ltb_spec 20 (ihl f)) as [HO|HO].
  - destruct (opts_loop_spec f HB ltac:(lia) (Z.to_nat (ihl f - 20)) 34 ltac:(lia) ltac:(lia)) as (b & Eb & Hb). exists b. auto.
  - exists true. split; [reflexivity|]. split; [intros _; apply no_options_fine; lia|reflexivity].
Qed.

(** ** Routing *)
Lemma forward_if_loop_spec all i d : (forall c, In c all -> c_ip c <> 0 -> c_ip c <> d) ->
  forall cs k, skipn (Z.to_nat k) all = cs -> 0 <= k ->
  match forward_if_loop cs k i d with
  | Some o => k <= o /\ o <> i /\ (exists c, nth_error all (Z.to_nat o) = Some c /\ c_ip c <> 0 /\ in_subnet c d) /\
      forall j c, k <= j < o -> nth_error all (Z.to_nat j) = Some c -> c_ip c <> 0 -> j <> i -> ~ in_subnet c d
  | None => forall j c, k <= j -> nth_error all (Z.to_nat j) = Some c -> c_ip c <> 0 -> j <> i -> ~ in_subnet c d
  end.
Proof.
  intros NO. induction cs as [|c cs IH]; intros k HS Hk; cbn [forward_if_loop].
  - intros j c J HN. exfalso.
    assert (length all <= Z.to_nat k)%nat.
    { pose proof (skipn_length (Z.to_nat k) all) as L. rewrite HS in L. cbn in L. lia. }
    assert (HX : nth_error all (Z.to_nat j) = None) by (apply nth_error_None; lia). congruence.
  - assert (H1 : nth_error all (Z.to_nat k) = Some c).
    { rewrite <- (firstn_skipn (Z.to_nat k) all), HS. rewrite nth_error_app2; rewrite firstn_length; [|lia].
      assert (L : (Z.to_nat k < length all)%nat).
      { pose proof (skipn_length (Z.to_nat k) all) as L. rewrite HS in L. cbn in L. lia. }
      replace (Z.to_nat k - Nat.min (Z.to_nat k) (length all))%nat with 0%nat by lia. reflexivity. }
    assert (HS' : skipn (Z.to_nat (k + 1)) all = cs).
    { replace (Z.to_nat (k + 1)) with (1 + Z.to_nat k)%nat by lia. rewrite <- skipn_skipn, HS. reflexivity. }
    specialize (IH (k + 1) HS' ltac:(lia)).
    assert (SKIP : (c_ip c <> 0 -> k <> i -> ~ in_subnet c d) ->
      match forward_if_loop cs (k + 1) i d with
      | Some o => k <= o /\ o <> i /\ (exists c, nth_error all (Z.to_nat o) = Some c /\ c_ip c <> 0 /\ in_subnet c d) /\
          forall j c, k <= j < o -> nth_error all (Z.to_nat j) = Some c -> c_ip c <> 0 -> j <> i -> ~ in_subnet c d
      | None => forall j c, k <= j -> nth_error all (Z.to_nat j) = Some c -> c_ip c <> 0 -> j <> i -> ~ in_subnet c d
      end).
    { intros NK. destruct (forward_if_loop cs (k + 1) i d) as [o|].
      - destruct IH as (I1 & I2 & I3 & I4). split; [lia|]. split; [exact I2|]. split; [exact I3|].
        intros j c' J N. destruct (Z.eq_dec j k) as [-> |D]; [assert (c' = c) by congruence; subst c'; exact NK|apply I4; [lia|assumption]].
      - intros j c' J N. destruct (Z.eq_dec j k) as [-> |D]; [assert (c' = c) by congruence; subst c'; exact NK|apply IH; [lia|assumption]]. }
    destruct (Z.eqb_spec k i) as [-> |D1]; [apply SKIP; intros; congruence|].
    destruct (Z.eqb_spec (c_ip c) 0) as [D2|D2]; [apply SKIP; intros; congruence|].
    destruct (Z.eqb_spec d (c_ip c)) as [D3|D3].
    { exfalso. apply (NO c); [eapply nth_error_In; eassumption|exact D2|congruence]. }
    destruct (ip_is_local_conf c d) eqn:D4.
    + split; [lia|]. split; [exact D1|]. split; [exists c; rewrite <- subnet_iff; auto|]. intros; lia.
    + apply SKIP. intros _ _. rewrite <- subnet_iff. congruence.
Qed.

Lemma static_spec w d : addr32 d -> Forall (route_ok (zlen (w_ifs w))) (w_routes w) ->
  let b := lookup_static (w_routes w) d {| b_if := -1; b_nh := d; b_len := 0; b_ord := 4294967295; b_found := false |} in
  if b_found b then exists r, static_best w d r /\ b_if b = r_if r /\ b_nh b = (if r_gw r =? 0 then d else r_gw r)
  else forall r, ~ static_best w d r.
Proof.
  intros Hd HR. set (b0 := {| b_if := -1; b_nh := d; b_len := 0; b_ord := 4294967295; b_found := false |}).
  destruct (lookup_static_spec (confs w) (zlen (w_ifs w)) d Hd (w_routes w) (fun _ _ _ _ => False) b0 HR) as [BIH _].
  { unfold BI. cbn. tauto. }
  cbv zeta. set (b := lookup_static (w_routes w) d b0) in *. unfold BI in BIH. destruct (b_found b).
  - destruct BIH as [[[]|(r & R1 & R2 & R3 & R4 & R5 & R6 & R7)] BEST]. exists r. split; [|auto]. split; [exact R1|]. split; [exact R2|]. split; [exact R3|].
    intros r' R1' R2' R3'. rewrite R4, R5, R6 in BEST. apply (BEST (r_len r') (r_order r') (r_if r') (if r_gw r' =? 0 then d else r_gw r')).
    right. exists r'. split; [exact R1'|]. split; [exact R2'|]. split; [exact R3'|]. auto.
  - intros r (R1 & R2 & R3 & _). apply (BIH (r_len r) (r_order r) (r_if r) (if r_gw r =? 0 then d else r_gw r)). right. exists r. auto 10.
Qed.
