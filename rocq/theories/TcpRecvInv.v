(** Invariant of the receiving half of a TCP connection, preserved by every segment and
    every read (peer that does not send data past its FIN). *)
From Coq Require Import Permutation.
From Verif Require Import Base ListUtil Seq SeqProps Queue QueueProofs HttpUrl TcpRecv TcpSack TcpRecvProofs.

Lemma coalesce_ok isn P lo hi s data x : hi - lo < 536870912 -> slot_inv isn P lo hi s -> o_used s = true -> lo <= x <= hi ->
  1 <= zlen data <= 1460 -> seg_bytes P x data ->
  coalesce s data (sq isn x) = Some None \/
  exists s' u, coalesce s data (sq isn x) = Some (Some s') /\ slot_inv isn P lo hi s' /\ o_used s' = true /\ o_seq s' = sq isn u /\
    lo <= u <= x /\ u <= hi /\ x + zlen data <= u + o_len s' /\ (forall y, slot_holds isn lo s y -> slot_holds isn lo s' y).
Proof.
  intros HW (Hd & Hu) U HX HL HB. destruct (Hu U) as (c & ES & ELN & EX & EB). unfold coalesce. rewrite ES, !sq_inc by lia. rewrite !sq_ltb by lia.
  destruct ((x <? c + o_len s) && (c <? x + zlen data)) eqn:OV; [|left; reflexivity].
  set (us := if x <? c then x else c). set (ue := if c + o_len s <? x + zlen data then x + zlen data else c + o_len s).
  replace (if x <? c then sq isn x else sq isn c) with (sq isn us) by (unfold us; destruct (x <? c); reflexivity).
  replace (if c + o_len s <? x + zlen data then sq isn (x + zlen data) else sq isn (c + o_len s)) with (sq isn ue) by (unfold ue; destruct (c + o_len s <? x + zlen data); reflexivity).
  assert (UR : lo <= us /\ us <= x /\ us <= c /\ (us = x \/ us = c)) by (unfold us; destruct (x <? c) eqn:E; lia).
  assert (UE : ue <= hi + 1460 /\ x + zlen data <= ue /\ c + o_len s <= ue /\ (ue = x + zlen data \/ ue = c + o_len s)) by (unfold ue; destruct (c + o_len s <? x + zlen data) eqn:E; lia).
  clearbody us ue. rewrite !sq_diffz by lia.
  rewrite !(fun z (h : 0 <= z < 4294967296) => Z.mod_small z 4294967296 h : u32 z = z) by lia.
  unfold MSS_MAX. destruct (ue - us <=? 1460) eqn:FIT; [|left; reflexivity]. right.
  assert (BUF : exists buf, (if negb (c - us =? 0) then do old <- mread (o_data s) 0 (o_len s); mwrite (o_data s) (c - us) old else Some (o_data s)) = Some buf /\
    zlen buf = 1460 /\ forall i, 0 <= i < o_len s -> exists b, nth_error buf (Z.to_nat (c - us + i)) = Some b /\ P (c + i) b).
  { destruct (Z.eqb_spec (c - us) 0) as [E0|E0]; cbn [negb].
    - exists (o_data s). split; [reflexivity|]. split; [exact Hd|]. rewrite E0. exact EB.
    - destruct (mread_in (o_data s) 0 (o_len s)) as (old & ER); [lia..|]. rewrite ER. cbn [obind]. pose proof (mread_some _ _ _ _ ER) as (_ & _ & _ & LO).
      destruct (mwrite_in (o_data s) (c - us) old) as (buf & EW); [lia|lia|]. pose proof (mwrite_some _ _ _ _ EW) as (_ & _ & LW).
      exists buf. split; [exact EW|]. split; [lia|]. intros i Hi. destruct (EB i Hi) as (b & B1 & B2). exists b. split; [|exact B2].
      rewrite (mwrite_nth _ _ _ _ _ EW). destruct ((Z.of_nat (Z.to_nat (c - us + i)) <? c - us) || (c - us + zlen old <=? Z.of_nat (Z.to_nat (c - us + i)))) eqn:Q; [lia|].
      rewrite (mread_nth _ _ _ _ _ ER). destruct (Z.of_nat (Z.to_nat (c - us + i) - Z.to_nat (c - us)) <? o_len s) eqn:Q2; [|lia].
      rewrite <- B1. f_equal. lia. }
  destruct BUF as (buf & -> & LB & CB). cbn [obind].
  destruct (mwrite_in buf (x - us) data) as (buf2 & EW); [lia|lia|]. rewrite EW. cbn [obind]. pose proof (mwrite_some _ _ _ _ EW) as (_ & _ & LW).
  eexists. exists us. split; [reflexivity|]. split.
  { split; [cbn [o_data]; lia|]. intros _. cbn [o_seq o_len o_data]. exists us. split; [reflexivity|]. split; [lia|]. split; [lia|].
    intros i Hi. rewrite (mwrite_nth _ _ _ _ _ EW).
    destruct ((Z.of_nat (Z.to_nat i) <? x - us) || (x - us + zlen data <=? Z.of_nat (Z.to_nat i))) eqn:Q.
    - destruct (CB (i - (c - us)) ltac:(lia)) as (b & B1 & B2). exists b. split; [rewrite <- B1; f_equal; lia|]. replace (us + i) with (c + (i - (c - us))) by lia. exact B2.
    - destruct (nth_error data (Z.to_nat i - Z.to_nat (x - us))) as [b|] eqn:EN.
      + exists b. split; [reflexivity|]. apply HB in EN. replace (us + i) with (x + Z.of_nat (Z.to_nat i - Z.to_nat (x - us))) by lia. exact EN.
      + apply nth_error_None in EN. unfold zlen in *. lia. }
  cbn [o_used o_seq o_len]. split; [reflexivity|]. split; [reflexivity|]. split; [lia|]. split; [lia|]. split; [lia|].
  intros y HY. apply (slot_holds_at _ _ _ _ c U ES) in HY; [|lia]. split; [reflexivity|]. exists us. cbn [o_seq o_len]. split; [reflexivity|]. lia.
Qed.

Lemma store_scan_ok isn P lo hi data x : hi - lo < 536870912 -> lo <= x <= hi -> 1 <= zlen data <= 1460 -> seg_bytes P x data ->
  forall l i free, Forall (slot_inv isn P lo hi) l ->
  match store_scan l i free data (sq isn x) with
  | None => False
  | Some (Coalesced j s') => exists k s, j = (i + k)%nat /\ nth_error l k = Some s /\ o_used s = true /\ coalesce s data (sq isn x) = Some (Some s')
  | Some (Free f) => f = free \/ exists k s, f = Some (i + k)%nat /\ nth_error l k = Some s /\ o_used s = false
  end.
Proof.
  intros HW HX HL HB. induction l as [|s l IH]; intros i free HF; cbn [store_scan]; [left; reflexivity|]. inversion HF as [|? ? Hs HF']; subst.
  destruct (o_used s) eqn:U; cbn [negb].
  - destruct (coalesce_ok isn P lo hi s data x HW Hs U HX HL HB) as [E|(s' & u & E & _)]; rewrite E; cbn [obind].
    + specialize (IH (S i) free HF'). destruct (store_scan l (S i) free data (sq isn x)) as [[j s'|f]|]; [| |exact IH].
      * destruct IH as (k & s2 & -> & N & U2 & C). exists (S k), s2. split; [lia|]. auto.
      * destruct IH as [IH|(k & s2 & -> & N & U2)]; [left; exact IH|right; exists (S k), s2]. split; [f_equal; lia|]. auto.
    + exists O, s. split; [lia|]. auto.
  - specialize (IH (S i) (match free with None => Some i | _ => free end) HF').
    destruct (store_scan l (S i) (match free with None => Some i | _ => free end) data (sq isn x)) as [[j s'|f]|]; [| |exact IH].
    + destruct IH as (k & s2 & -> & N & U2 & C). exists (S k), s2. split; [lia|]. auto.
    + destruct IH as [IH|(k & s2 & -> & N & U2)].
      * destruct free as [fr|]; [left; exact IH|]. right. exists O, s. split; [rewrite IH; f_equal; lia|]. auto.
      * right. exists (S k), s2. split; [f_equal; lia|]. auto.
Qed.

Lemma Forall_set_nth {A} (Q : A -> Prop) v : forall l i, Forall Q l -> Q v -> Forall Q (set_nth i v l).
Proof. induction l as [|a l IH]; intros i H HV; destruct i; cbn [set_nth]; try assumption; inversion H; subst; constructor; auto. Qed.
Lemma holds_set_nth isn lo : forall sl i s s', nth_error sl i = Some s -> (forall y, slot_holds isn lo s y -> slot_holds isn lo s' y) ->
  forall y, holds isn lo sl y \/ slot_holds isn lo s' y -> holds isn lo (set_nth i s' sl) y.
Proof.
  induction sl as [|a sl IH]; intros i s s' N K y H; destruct i as [|i]; cbn [nth_error set_nth] in *; try discriminate.
  - assert (a = s) by congruence. subst a. rewrite holds_cons in *. destruct H as [[H|H]|H]; [left; auto|right; exact H|left; exact H].
  - rewrite holds_cons in *. destruct H as [[H|H]|H]; [left; exact H|right; eapply IH; eauto|right; eapply IH; eauto].
Qed.
Lemma in_set_nth {A} (v : A) : forall l i s, nth_error l i = Some s -> In v (set_nth i v l).
Proof. induction l as [|a l IH]; intros i s N; destruct i; cbn in *; try discriminate; [left; reflexivity|right; eapply IH; exact N]. Qed.

Lemma apart_in bs b c : apart bs -> In b bs -> In c bs -> b = c \/ snd b < fst c \/ snd c < fst b.
Proof.
  intros [_ H]. induction H as [|a l HA HO IH]; intros Ib Ic; [destruct Ib|]. rewrite Forall_forall in HA.
  destruct Ib as [<- |Ib], Ic as [<- |Ic]; [left; reflexivity|right; exact (HA c Ic)| |auto]. right. specialize (HA b Ib). cbv beta in HA. tauto.
Qed.
Lemma block_contains_run bs b u e : apart bs -> In b bs -> fst b <= u < snd b -> (forall y, u <= y < e -> covers bs y) -> e <= snd b.
Proof.
  intros A I H C. destruct (Z.le_gt_cases e (snd b)); [assumption|]. destruct (C (snd b) ltac:(lia)) as (c & Ic & Yc).
  destruct (apart_in bs b c A I Ic) as [-> |[X|X]]; lia.
Qed.

(** [st] acknowledges everything below offset [n]. *)
Definition first_block_contains (isn : Z) (sk : list (Z * Z)) (x e : Z) : Prop :=
  exists l r rest, sk = (sq isn l, sq isn r) :: rest /\ l <= x /\ e <= r.

Lemma rebuild_trigger isn P n hi sl s u : hi - n < 536870912 -> length sl = 4%nat -> Forall (slot_inv isn P n hi) sl ->
  In s sl -> o_used s = true -> o_seq s = sq isn u -> n <= u <= hi -> 1 <= o_len s <= 1460 ->
  sack_inv isn n n sl (rebuild_sack sl (o_seq s) (o_len s)) /\ first_block_contains isn (rebuild_sack sl (o_seq s) (o_len s)) u (u + o_len s).
Proof.
  intros HW HL HF IN U ES HU HLN. destruct (rebuild_ok isn P n hi sl (o_seq s) (o_len s) HW HL HF) as (bs & A & B).
  { intros _. exists u. split; [exact ES|lia]. }
  split; [exists bs; exact A|]. destruct (B u ltac:(lia) ES ltac:(lia)) as (b & rest & E & H).
  { exists s. split; [exact IN|]. split; [exact U|]. exists u. split; [exact ES|]. lia. }
  destruct A as (A1 & A2 & A3 & A4 & A5). exists (fst b), (snd b), (map (sqb isn) rest). split; [rewrite A1, E; reflexivity|]. split; [lia|].
  eapply block_contains_run; [exact A3|rewrite E; left; reflexivity|exact H|].
  intros y Hy. apply A5. exists s. split; [exact IN|]. split; [exact U|]. exists u. split; [exact ES|]. lia.
Qed.

Lemma store_ok isn P n hi st data x : hi - n < 536870912 -> length (rx_ooo st) = 4%nat -> Forall (slot_inv isn P n hi) (rx_ooo st) ->
  sack_inv isn n n (rx_ooo st) (rx_sack st) -> n <= x <= hi -> seg_bytes P x data ->
  exists st', tcp_store_ooo st data (sq isn x) = Some st' /\ rx_q st' = rx_q st /\ rx_ack st' = rx_ack st /\
    length (rx_ooo st') = 4%nat /\ Forall (slot_inv isn P n hi) (rx_ooo st') /\ sack_inv isn n n (rx_ooo st') (rx_sack st') /\
    (forall y, holds isn n (rx_ooo st) y -> holds isn n (rx_ooo st') y) /\
    (st' = st \/ first_block_contains isn (rx_sack st') x (x + zlen data)).
Proof.
  intros HW HL HF HK HX HB. unfold tcp_store_ooo, MSS_MAX. destruct ((zlen data =? 0) || (1460 <? zlen data)) eqn:E0.
  { exists st. repeat (split; [first [reflexivity|assumption]|]). split; [auto|]. left. reflexivity. }
  pose proof (zlen_nonneg data) as ZN. assert (LD : 1 <= zlen data <= 1460) by lia.
  pose proof (store_scan_ok isn P n hi data x HW HX LD HB (rx_ooo st) 0 None HF) as SC.
  destruct (store_scan (rx_ooo st) 0 None data (sq isn x)) as [[j s'|f]|]; cbn [obind]; [| |contradiction].
  - destruct SC as (k & s & -> & N & U & C). cbn [Nat.add]. rewrite Forall_forall in HF. pose proof (HF s (nth_error_In _ _ N)) as Hs.
    destruct (coalesce_ok isn P n hi s data x HW Hs U HX LD HB) as [E|(s2 & u & E & I1 & I2 & I3 & I4 & I5 & I6 & I7)]; [congruence|].
    assert (s2 = s') by congruence. subst s2. assert (HF' : Forall (slot_inv isn P n hi) (set_nth k s' (rx_ooo st))) by (apply Forall_set_nth; [apply Forall_forall; exact HF|exact I1]).
    pose proof I1 as (_ & I1'). destruct (I1' I2) as (u' & _ & LN & _ & _).
    destruct (rebuild_trigger isn P n hi (set_nth k s' (rx_ooo st)) s' u) as [T1 (l & r & rest & T2 & T3 & T4)]; [lia|rewrite set_nth_length; exact HL|exact HF'|eapply in_set_nth; exact N|exact I2|exact I3|lia|exact LN|].
    eexists. split; [reflexivity|]. cbn [rx_q rx_ack rx_ooo rx_sack]. repeat (split; [first [reflexivity|assumption|rewrite set_nth_length; exact HL]|]).
    split; [intros y Hy; eapply holds_set_nth; [exact N|exact I7|left; exact Hy]|]. right. exists l, r, rest. split; [exact T2|]. lia.
  - destruct SC as [-> |(k & s & -> & N & U)].
    { exists st. repeat (split; [first [reflexivity|assumption]|]). split; [auto|]. left. reflexivity. }
    cbn [Nat.add]. rewrite N. cbn [obind]. rewrite Forall_forall in HF. pose proof (HF s (nth_error_In _ _ N)) as (Hd & _).
    destruct (mwrite_in (o_data s) 0 data) as (buf & EW); [lia|lia|]. rewrite EW. cbn [obind]. pose proof (mwrite_some _ _ _ _ EW) as (_ & _ & LW).
    set (s' := mkSlot true (sq isn x) (zlen data) buf).
    assert (I1 : slot_inv isn P n hi s').
    { split; [cbn; lia|]. intros _. exists x. cbn [s' o_seq o_len o_data]. split; [reflexivity|]. split; [lia|]. split; [lia|]. intros i Hi.
      rewrite (mwrite_nth _ _ _ _ _ EW). destruct ((Z.of_nat (Z.to_nat i) <? 0) || (0 + zlen data <=? Z.of_nat (Z.to_nat i))) eqn:Q; [lia|].
      destruct (nth_error data (Z.to_nat i - Z.to_nat 0)) as [b|] eqn:EN; [|apply nth_error_None in EN; unfold zlen in *; lia].
      exists b. split; [reflexivity|]. apply HB in EN. replace (x + i) with (x + Z.of_nat (Z.to_nat i - Z.to_nat 0)) by lia. exact EN. }
    assert (HF' : Forall (slot_inv isn P n hi) (set_nth k s' (rx_ooo st))) by (apply Forall_set_nth; [apply Forall_forall; exact HF|exact I1]).
    destruct (rebuild_trigger isn P n hi (set_nth k s' (rx_ooo st)) s' x) as [T1 T2]; [lia|rewrite set_nth_length; exact HL|exact HF'|eapply in_set_nth; exact N|reflexivity|reflexivity|lia|cbn; lia|].
    cbn [s' o_seq o_len] in T1, T2.
    eexists. split; [reflexivity|]. cbn [rx_q rx_ack rx_ooo rx_sack]. repeat (split; [first [reflexivity|assumption|rewrite set_nth_length; exact HL]|]).
    split; [intros y Hy; eapply holds_set_nth; [exact N| |left; exact Hy]; intros y' (X & _); congruence|]. right. exact T2.
Qed.

(** The invariant.  [d] bytes have been read, [l] are queued, [fin]: the peer's FIN has
    been accepted.  [T] is the length of the peer's stream. *)
Definition rcvd (d : Z) (l : list Z) (fin : bool) : Z := d + zlen l + (if fin then 1 else 0).
Record Inv (isn : Z) (P : Z -> Z -> Prop) (T cap : Z) (st : rxs) (d : Z) (l : list Z) (fin : bool) : Prop := mkInv {
  inv_ring : ring isn P cap (rx_q st) d l;
  inv_d : 0 <= d;
  inv_ack : rx_ack st = sq isn (rcvd d l fin);
  inv_len : length (rx_ooo st) = 4%nat;
  inv_ooo : Forall (slot_inv isn P (rcvd d l fin) (d + cap)) (rx_ooo st);
  inv_sack : sack_inv isn (rcvd d l fin) (rcvd d l fin) (rx_ooo st) (rx_sack st);
  inv_fin : fin = true -> d + zlen l = T }.
(** What an ACK must satisfy when everything below [m] has been received. *)
Definition ack_ok (isn : Z) (P : Z -> Z -> Prop) (lo hi : Z) (a : Z * list (Z * Z)) : Prop :=
  exists m bs, lo <= m <= hi /\ fst a = sq isn m /\ snd a = map (sqb isn) bs /\ (length bs <= 4)%nat /\ apart bs /\
    Forall (fun b => m <= fst b /\ snd b < m + 1073741824) bs /\ forall y, covers bs y -> exists b, P y b.
Lemma ack_ok_mono isn P lo hi lo' hi' a : lo' <= lo -> hi <= hi' -> ack_ok isn P lo hi a -> ack_ok isn P lo' hi' a.
Proof. intros A B (m & bs & H & R). exists m, bs. split; [lia|exact R]. Qed.
Lemma inv_ack_ok isn P T cap st d l fin : 0 < cap < 536870912 -> Inv isn P T cap st d l fin -> ack_ok isn P (rcvd d l fin) (rcvd d l fin) (ack_of st).
Proof.
  intros HC [R D A L O (bs & S1 & S2 & S3 & S4 & S5) F]. exists (rcvd d l fin), bs. split; [lia|]. split; [exact A|]. split; [exact S1|]. split; [exact S2|]. split; [exact S3|]. split; [exact S4|].
  intros y Hy. apply S5 in Hy. destruct Hy as (s & I & H). rewrite Forall_forall in O. destruct (O s I) as (_ & O'). destruct H as (U & x & E & X).
  destruct (O' U) as (x' & E' & LN & X' & C). destruct R as (_ & _ & _ & _ & RL). assert (x' = x). { rewrite E in E'. apply Z.eqb_eq in E'. rewrite sq_eqz in E'; [lia|]. unfold rcvd in *. pose proof (zlen_nonneg l). destruct fin; lia. }
  subst x'. destruct (C (y - x) ltac:(lia)) as (b & _ & PB). exists b. replace (x + (y - x)) with y in PB by lia. exact PB.
Qed.

(** Cached bytes stay cached until they are acknowledged. *)
Definition keeps (isn n n' : Z) (sl sl' : list slot) : Prop := forall y, n' <= y -> holds isn n sl y -> holds isn n' sl' y.
Lemma holds_up isn P n n' hi sl y : n <= n' -> hi - n < 536870912 -> Forall (slot_inv isn P n' hi) sl -> holds isn n sl y -> holds isn n' sl y.
Proof.
  intros HN HW HF (s & I & U & x & E & X). exists s. split; [exact I|]. split; [exact U|]. rewrite Forall_forall in HF. destruct (HF s I) as (_ & H). destruct (H U) as (x' & E' & LN & X' & _).
  assert (x' = x). { rewrite E in E'. apply Z.eqb_eq in E'. rewrite sq_eqz in E' by lia. lia. } subst x'. exists x. split; [exact E|]. lia.
Qed.

Definition recv_post isn P T cap st d l st' l' (acks : list (Z * list (Z * Z))) (x : Z) (data : list Z) : Prop :=
  Inv isn P T cap st' d l' false /\ (exists k, l' = l ++ k) /\ Forall (ack_ok isn P (d + zlen l) (d + zlen l')) acks /\
  keeps isn (d + zlen l) (d + zlen l') (rx_ooo st) (rx_ooo st') /\
  (d + zlen l < x -> l' = l /\ exists a, acks = [a] /\ (rx_sack st' = rx_sack st \/ first_block_contains isn (snd a) x (x + zlen data))) /\
  (x <= d + zlen l -> x + zlen data - (d + zlen l) <= cap - zlen l -> x + zlen data <= d + zlen l').

Lemma tcp_recv_ok isn P T cap st d l x data : 0 < cap < 536870912 -> Inv isn P T cap st d l false -> seg_bytes P x data -> data <> [] ->
  Z.abs (x - (d + zlen l)) < 1073741824 -> x <= d + cap -> zlen data <= 65535 ->
  exists st' acks l', tcp_recv st (sq isn x) data = Some (st', acks) /\ recv_post isn P T cap st d l st' l' acks x data.
Proof.
  intros HC HI HB NE NR HX HL. pose proof (inv_ack_ok _ _ _ _ _ _ _ _ HC HI) as AOK. pose proof HI as [R D A L O SK F].
  replace (rcvd d l false) with (d + zlen l) in * by (unfold rcvd; lia). set (n := d + zlen l) in *.
  pose proof (zlen_nonneg l) as NL. pose proof R as (_ & _ & _ & _ & RL).
  assert (LD : 1 <= zlen data). { pose proof (zlen_nonneg data). destruct (Z.eq_dec (zlen data) 0) as [Z0|]; [apply zlen_zero in Z0; contradiction|lia]. }
  unfold tcp_recv. destruct (Z.eqb_spec (zlen data) 0) as [Z0|_]; [lia|]. rewrite A, sq_ltb by lia.
  assert (SAME : x + zlen data <= n \/ (x <= n /\ cap - zlen l < x + zlen data - n) -> forall q', ring isn P cap q' d l -> recv_post isn P T cap st d l (mkRx q' (sq isn n) (rx_ooo st) (rx_sack st)) l [ack_of (mkRx q' (sq isn n) (rx_ooo st) (rx_sack st))] x data).
  { intros C q' R'. split; [constructor; cbn [rx_q rx_ack rx_ooo rx_sack]; try assumption; unfold rcvd; rewrite Z.add_0_r; assumption || reflexivity|]. split; [exists []; rewrite app_nil_r; reflexivity|].
    split; [constructor; [unfold ack_of in *; cbn [rx_ack rx_sack]; rewrite <- A; exact AOK|constructor]|]. split; [intros y _ H; exact H|]. split; [intros X; lia|]. fold n. lia. }
  destruct (x <? n) eqn:E1.
  - rewrite sq_diffz by lia. replace (u32 (n - x)) with (n - x) by (unfold u32; rewrite Z.mod_small; lia). cbn [andb].
    destruct (zlen data <=? n - x) eqn:E2.
    { exists st, [ack_of st], l. split; [reflexivity|]. assert (Q : st = mkRx (rx_q st) (sq isn n) (rx_ooo st) (rx_sack st)) by (destruct st; cbn in *; congruence). pose proof (SAME ltac:(lia) (rx_q st) R) as W. rewrite <- Q in W. exact W. }
    rewrite sq_inc by lia. replace (x + (n - x)) with n by lia.
    destruct (mread_in data (n - x) (zlen data - (n - x))) as (d2 & ER); [lia..|]. rewrite ER. cbn [obind]. rewrite Z.eqb_refl.
    pose proof (mread_some _ _ _ _ ER) as (_ & _ & _ & L2).
    assert (HB2 : seg_bytes P n d2).
    { intros i b EN. rewrite (mread_nth _ _ _ _ _ ER) in EN. destruct (Z.of_nat i <? zlen data - (n - x)) eqn:Q; [|discriminate]. apply HB in EN. replace (n + Z.of_nat i) with (x + Z.of_nat (Z.to_nat (n - x) + i)) by lia. exact EN. }
    destruct (ring_insert isn P cap (rx_q st) d l d2 HC R HB2) as (q' & r & EI & HI2); [intros ->; change (zlen (@nil Z)) with 0 in L2; lia|].
    fold n in EI. rewrite EI. cbn [obind]. destruct HI2 as [(I1 & -> & I2)|(I1 & -> & I2)].
    + change (0 <? 0) with false. cbv iota. unfold tcp_consume_ooo. cbn [rx_q rx_ack rx_ooo]. rewrite sq_inc by lia.
      replace (n + zlen d2) with (d + zlen (l ++ d2)) by (rewrite zlen_app; lia).
      destruct (consume_loop_ok isn P cap d n HC ltac:(lia) 40 q' (l ++ d2) (rx_ooo st) I2 O L) as (q2 & sl2 & l2 & E & R2 & (k & K) & F2 & L3 & KP).
      { pose proof (nused_le (rx_ooo st)). pose proof (nbelow_le (sq isn (d + zlen (l ++ d2))) (rx_ooo st)). lia. }
      rewrite E. cbn [obind fst snd].
      assert (Z2 : zlen l2 = zlen l + zlen d2 + zlen k) by (rewrite K, !zlen_app; lia). pose proof (zlen_nonneg k). pose proof R2 as (_ & _ & _ & _ & RL2).
      destruct (rebuild_ok isn P (d + zlen l2) (d + cap) sl2 0 0) as (bs & S1 & _); [lia|exact L3|exact F2|intros X; contradiction|].
      assert (HI' : Inv isn P T cap (mkRx q2 (sq isn (d + zlen l2)) sl2 (rebuild_sack sl2 0 0)) d l2 false).
      { constructor; cbn [rx_q rx_ack rx_ooo rx_sack]; try assumption; unfold rcvd; rewrite ?Z.add_0_r; try assumption; [reflexivity|exists bs; exact S1|discriminate]. }
      eexists _, _, l2. split; [reflexivity|]. split; [exact HI'|]. split; [exists (d2 ++ k); rewrite K, app_assoc; reflexivity|].
      split; [constructor; [|constructor]; eapply ack_ok_mono; [| |apply (inv_ack_ok _ _ _ _ _ _ _ _ HC HI')]; unfold rcvd; lia|].
      split; [intros y Y H'; cbn [rx_ooo]; eapply holds_up; [| |exact F2|apply KP; [exact Y|exact H']]; lia|]. split; [lia|]. lia.
    + change (-1 <? 0) with true. cbv iota. eexists _, _, l. split; [reflexivity|]. apply SAME; [|exact I2]. right. lia.
  - cbn [andb]. rewrite Z.sub_0_r. rewrite (mread_full data). cbn [obind]. rewrite sq_eqz by lia. destruct (Z.eqb_spec x n) as [-> |NX].
    + destruct (ring_insert isn P cap (rx_q st) d l data HC R HB NE) as (q' & r & EI & HI2). fold n in EI. rewrite EI. cbn [obind]. destruct HI2 as [(I1 & -> & I2)|(I1 & -> & I2)].
      * change (0 <? 0) with false. cbv iota. unfold tcp_consume_ooo. cbn [rx_q rx_ack rx_ooo]. rewrite sq_inc by lia.
        replace (n + zlen data) with (d + zlen (l ++ data)) by (rewrite zlen_app; lia).
        destruct (consume_loop_ok isn P cap d n HC ltac:(lia) 40 q' (l ++ data) (rx_ooo st) I2 O L) as (q2 & sl2 & l2 & E & R2 & (k & K) & F2 & L3 & KP).
        { pose proof (nused_le (rx_ooo st)). pose proof (nbelow_le (sq isn (d + zlen (l ++ data))) (rx_ooo st)). lia. }
        rewrite E. cbn [obind fst snd].
        assert (Z2 : zlen l2 = zlen l + zlen data + zlen k) by (rewrite K, !zlen_app; lia). pose proof (zlen_nonneg k). pose proof R2 as (_ & _ & _ & _ & RL2).
        destruct (rebuild_ok isn P (d + zlen l2) (d + cap) sl2 0 0) as (bs & S1 & _); [lia|exact L3|exact F2|intros X; contradiction|].
        assert (HI' : Inv isn P T cap (mkRx q2 (sq isn (d + zlen l2)) sl2 (rebuild_sack sl2 0 0)) d l2 false).
        { constructor; cbn [rx_q rx_ack rx_ooo rx_sack]; try assumption; unfold rcvd; rewrite ?Z.add_0_r; try assumption; [reflexivity|exists bs; exact S1|discriminate]. }
        eexists _, _, l2. split; [reflexivity|]. split; [exact HI'|]. split; [exists (data ++ k); rewrite K, app_assoc; reflexivity|].
        split; [constructor; [|constructor]; eapply ack_ok_mono; [| |apply (inv_ack_ok _ _ _ _ _ _ _ _ HC HI')]; unfold rcvd; lia|].
        split; [intros y Y H'; cbn [rx_ooo]; eapply holds_up; [| |exact F2|apply KP; [exact Y|exact H']]; lia|]. split; [lia|]. lia.
      * change (-1 <? 0) with true. cbv iota. eexists _, _, l. split; [reflexivity|]. apply SAME; [|exact I2]. right. lia.
    + rewrite sq_ltb by lia. replace (n <? x) with true by lia.
      destruct (store_ok isn P n (d + cap) st data x) as (st' & E & S1 & S2 & S3 & S4 & S5 & S6 & S7); [lia|assumption..|lia|exact HB|]. rewrite E. cbn [obind].
      assert (HI' : Inv isn P T cap st' d l false).
      { constructor; try assumption; unfold rcvd; rewrite ?Z.add_0_r; try assumption; [rewrite S1; exact R|rewrite S2; exact A]. }
      eexists _, _, l. split; [reflexivity|]. split; [exact HI'|]. split; [exists []; rewrite app_nil_r; reflexivity|].
      split; [constructor; [|constructor]; eapply ack_ok_mono; [| |apply (inv_ack_ok _ _ _ _ _ _ _ _ HC HI')]; unfold rcvd; lia|].
      split; [intros y Y H'; apply S6; exact H'|]. split; [|lia]. intros _. split; [reflexivity|]. eexists. split; [reflexivity|].
      destruct S7 as [-> |S7]; [left; reflexivity|right; exact S7].
Qed.

(** One segment. *)
Lemma inv_no_slots isn (P : Z -> Z -> Prop) T cap st d l fin : 0 < cap < 536870912 -> (forall y b, P y b -> y < T) -> Inv isn P T cap st d l fin -> d + zlen l = T ->
  forall y, ~ holds isn (rcvd d l fin) (rx_ooo st) y.
Proof.
  intros HC HP [R D A L O SK F] E y (s & I & U & _). rewrite Forall_forall in O. destruct (O s I) as (_ & H). destruct (H U) as (x & _ & LN & X & C).
  destruct (C 0 ltac:(lia)) as (b & _ & PB). apply HP in PB. unfold rcvd in X. destruct fin; lia.
Qed.
Lemma covers_none bs : Forall (fun b => fst b < snd b) bs -> (forall y, ~ covers bs y) -> bs = [].
Proof. destruct bs as [|b r]; [reflexivity|]. intros H C. inversion H; subst. exfalso. apply (C (fst b)). exists b. split; [left; reflexivity|lia]. Qed.

Definition seg_post isn P T cap st d l fin st' l' fin' (acks : list (Z * list (Z * Z))) (x : Z) (data : list Z) (fn : bool) : Prop :=
  Inv isn P T cap st' d l' fin' /\ (exists k, l' = l ++ k) /\ Forall (ack_ok isn P (rcvd d l fin) (rcvd d l' fin')) acks /\
  keeps isn (rcvd d l fin) (rcvd d l' fin') (rx_ooo st) (rx_ooo st') /\
  (fin = true -> fin' = true) /\ (fin' = true -> fin = true \/ fn = true) /\
  (rcvd d l fin < x -> 0 < zlen data -> rx_sack st' = rx_sack st \/ exists a rest, acks = a :: rest /\ first_block_contains isn (snd a) x (x + zlen data)) /\
  (fin = false -> x <= d + zlen l < x + zlen data + (if fn then 1 else 0) -> x + zlen data + (if fn then 1 else 0) - (d + zlen l) <= cap - zlen l ->
     x + zlen data <= d + zlen l' /\ (fn = true -> fin' = true)).

Lemma seg_ok isn (P : Z -> Z -> Prop) T cap st d l fin x data fn : 0 < cap < 536870912 -> (forall y b, P y b -> y < T) -> Inv isn P T cap st d l fin -> seg_bytes P x data ->
  (fn = true -> x + zlen data = T) -> x + zlen data <= T -> Z.abs (x - (d + zlen l)) < 536870912 -> zlen data <= 65535 ->
  exists st' acks l' fin', seg_input st (sq isn x) data fn = Some (st', acks) /\ seg_post isn P T cap st d l fin st' l' fin' acks x data fn.
Proof.
  intros HC HP HI HB HFN HXT NR HL. pose proof (inv_ack_ok _ _ _ _ _ _ _ _ HC HI) as AOK. pose proof HI as [R D A L O SK F].
  pose proof (zlen_nonneg l) as NL. pose proof R as (RQ & RS & _ & _ & RL). pose proof (zlen_nonneg data) as ND. destruct (queue_space_spec _ _ RQ) as [SP SP0]. rewrite RS in SP.
  unfold seg_input. rewrite A. set (n := rcvd d l fin) in *.
  assert (NN : n = d + zlen l \/ n = d + zlen l + 1) by (unfold n, rcvd; destruct fin; lia).
  set (L' := zlen data + (if fn then 1 else 0)). assert (L1 : zlen data <= L' <= zlen data + 1) by (unfold L'; destruct fn; lia).
  pose proof (acceptable_iff_rfc9293 (isn + n) (queue_space (rx_q st)) (isn + x) L' ltac:(lia) ltac:(lia) ltac:(lia)) as ACC. change (u32 (isn + n)) with (sq isn n) in ACC. change (u32 (isn + x)) with (sq isn x) in ACC.
  assert (STAY : forall st', st' = st -> (fin = false -> ~ (x <= d + zlen l < x + L' /\ x + L' - (d + zlen l) <= cap - zlen l)) -> (rcvd d l fin < x -> rx_sack st' = rx_sack st) ->
     forall acks, Forall (fun a => a = ack_of st) acks -> seg_post isn P T cap st d l fin st' l fin acks x data fn).
  { intros st' -> NO SS acks FA. split; [exact HI|]. split; [exists []; rewrite app_nil_r; reflexivity|]. split; [eapply Forall_impl; [|exact FA]; intros a ->; exact AOK|].
    split; [intros y _ H; exact H|]. split; [auto|]. split; [auto|]. split; [left; auto|].
    intros Hf H1 H2. exfalso. apply (NO Hf). unfold L'. lia. }
  destruct (tcp_segment_acceptable (sq isn n) (queue_space (rx_q st)) (sq isn x) L') eqn:EA; cbn [negb].
  2:{ exists st, [ack_of st], l, fin. split; [reflexivity|]. apply STAY; [reflexivity| |reflexivity|repeat constructor].
      intros Hf (H1 & H2). assert (ACC' : ~ rfc9293_acceptable (isn + n) (queue_space (rx_q st)) (isn + x) L') by (intros X; apply ACC in X; discriminate).
      apply ACC'. unfold rfc9293_acceptable. assert (n = d + zlen l) by (unfold n, rcvd; rewrite Hf; lia). lia. }
  assert (AC : rfc9293_acceptable (isn + n) (queue_space (rx_q st)) (isn + x) L') by (apply ACC; reflexivity). clear ACC. unfold rfc9293_acceptable in AC.
  destruct fin eqn:EF.
  { (* everything of the stream has arrived *)
    specialize (F eq_refl). assert (n = T + 1) by (unfold n, rcvd; lia).
    assert (LZ : zlen data = 0 /\ fn = false) by (unfold L' in *; destruct fn; [specialize (HFN eq_refl)|]; lia). destruct LZ as [LZ ->].
    rewrite LZ. change (0 <? 0) with false. cbv iota. cbn [obind]. exists st, [], l, true. split; [reflexivity|]. apply STAY; [reflexivity|intros Hf; discriminate|reflexivity|constructor]. }
  assert (n = d + zlen l) by (unfold n, rcvd; lia).
  assert (XH : x <= d + cap) by lia.
  (* the data part *)
  assert (DATA : exists st1 acks1 l1, (if 0 <? zlen data then tcp_recv st (sq isn x) data else Some (st, [])) = Some (st1, acks1) /\
    Inv isn P T cap st1 d l1 false /\ (exists k, l1 = l ++ k) /\ Forall (ack_ok isn P (d + zlen l) (d + zlen l1)) acks1 /\
    keeps isn (d + zlen l) (d + zlen l1) (rx_ooo st) (rx_ooo st1) /\
    (d + zlen l < x -> l1 = l /\ (0 < zlen data -> exists a, acks1 = [a] /\ (rx_sack st1 = rx_sack st \/ first_block_contains isn (snd a) x (x + zlen data))) /\ (zlen data = 0 -> st1 = st)) /\
    (x <= d + zlen l <= x + zlen data -> x + zlen data - (d + zlen l) <= cap - zlen l -> x + zlen data <= d + zlen l1)).
  { destruct (Z.ltb_spec 0 (zlen data)) as [LD|LD].
    - destruct (tcp_recv_ok isn P T cap st d l x data HC HI HB) as (st1 & acks1 & l1 & E & P1 & P2 & P3 & P4 & P5 & P6); [intros ->; change (zlen (@nil Z)) with 0 in LD; lia|lia|lia|lia|].
      exists st1, acks1, l1. split; [exact E|]. split; [exact P1|]. split; [exact P2|]. split; [exact P3|]. split; [exact P4|].
      split; [intros Q; destruct (P5 Q) as (Q1 & Q2); split; [exact Q1|]; split; [intros _; exact Q2|lia]|]. intros Q1 Q2. apply P6; lia.
    - exists st, [], l. split; [reflexivity|]. split; [exact HI|]. split; [exists []; rewrite app_nil_r; reflexivity|]. split; [constructor|]. split; [intros y _ Hy; exact Hy|].
      split; [intros Q; split; [reflexivity|]; split; [lia|reflexivity]|]. lia. }
  destruct DATA as (st1 & acks1 & l1 & -> & HI1 & (k & K) & AK & KP & OOO & PRG). cbn [obind]. pose proof (zlen_nonneg k) as NK.
  assert (ZL1 : zlen l1 = zlen l + zlen k) by (rewrite K, zlen_app; lia).
  pose proof (inv_ack_ok _ _ _ _ _ _ _ _ HC HI1) as AOK1. pose proof HI1 as [R1 D1 A1 L1' O1 SK1 F1]. pose proof R1 as (_ & _ & _ & _ & RL1).
  replace (rcvd d l1 false) with (d + zlen l1) in * by (unfold rcvd; lia).
  assert (RN : rcvd d l false = d + zlen l) by (unfold rcvd; lia).
  assert (NOFIN : forall acks, (exists r, acks = acks1 ++ r /\ Forall (fun a => a = ack_of st1) r) ->
     (fn = true -> ~ (x <= d + zlen l <= x + zlen data /\ x + zlen data - (d + zlen l) <= cap - zlen l)) -> seg_post isn P T cap st d l false st1 l1 false acks x data fn).
  { intros acks (r & -> & FR) NO. split; [exact HI1|]. split; [exists k; exact K|].
    split; [apply Forall_app; split; [unfold rcvd; rewrite !Z.add_0_r; exact AK|eapply Forall_impl; [|exact FR]; intros a ->; eapply ack_ok_mono; [| |exact AOK1]; unfold rcvd; lia]|].
    unfold rcvd. rewrite !Z.add_0_r. split; [exact KP|]. split; [discriminate|]. split; [discriminate|]. split.
    - intros Q1 Q2. destruct (OOO Q1) as (_ & Q3 & _). destruct (Q3 Q2) as (a & Q4 & Q5). destruct Q5 as [Q5|Q5]; [left; exact Q5|]. right. exists a, r. rewrite Q4. split; [reflexivity|exact Q5].
    - intros _ Q1 Q2. destruct fn; [exfalso; apply (NO eq_refl); lia|]. split; [apply PRG; lia|discriminate]. }
  destruct fn.
  2:{ exists st1, acks1, l1, false. split; [reflexivity|]. apply NOFIN; [exists []; rewrite app_nil_r; split; [reflexivity|constructor]|discriminate]. }
  specialize (HFN eq_refl). rewrite A1, sq_inc by lia. rewrite !sq_eqz by lia.
  destruct (((zlen data =? 0) && negb (d + zlen l1 =? x)) || ((0 <? zlen data) && negb (d + zlen l1 =? x + zlen data))) eqn:EC.
  { exists st1, (acks1 ++ [ack_of st1]), l1, false. split; [reflexivity|]. apply NOFIN; [exists [ack_of st1]; split; [reflexivity|repeat constructor]|].
    intros _ (Q1 & Q2). pose proof (PRG Q1 Q2).
    (* the whole stream has arrived, so nothing lies beyond *)
    assert (d + zlen l1 <= T).
    { destruct (Z.le_gt_cases (d + zlen l1) T); [assumption|]. destruct R1 as (_ & _ & _ & RP & _).
      assert (NE1 : zlen l1 = 0 \/ 0 < zlen l1) by (pose proof (zlen_nonneg l1); lia). destruct NE1 as [NE1|NE1]; [lia|].
      destruct (nth_error l1 (Z.to_nat (zlen l1 - 1))) as [b|] eqn:EN; [|apply nth_error_None in EN; unfold zlen in *; lia]. apply RP in EN. apply HP in EN. lia. }
    lia. }
  assert (EQ : d + zlen l1 = T) by lia.
  replace (if 0 <? zlen data then tcp_seq_inc (sq isn (x + zlen data)) 1 else tcp_seq_inc (sq isn x) 1) with (sq isn (T + 1))
    by (rewrite !sq_inc by lia; destruct (Z.ltb_spec 0 (zlen data)); f_equal; lia).
  pose proof (inv_no_slots _ _ _ _ _ _ _ _ HC HP HI1 EQ) as NS. replace (rcvd d l1 false) with (d + zlen l1) in NS by (unfold rcvd; lia).
  assert (NU : Forall (fun s => o_used s = false) (rx_ooo st1)).
  { apply Forall_forall. intros s I. destruct (o_used s) eqn:U; [|reflexivity]. exfalso. rewrite Forall_forall in O1. destruct (O1 s I) as (Hd & H2). destruct (H2 U) as (xx & EX & LN & XX & C).
    apply (NS xx). exists s. split; [exact I|]. split; [exact U|]. exists xx. split; [exact EX|]. lia. }
  assert (HI2 : Inv isn P T cap (mkRx (rx_q st1) (sq isn (T + 1)) (rx_ooo st1) (rx_sack st1)) d l1 true).
  { constructor; cbn [rx_q rx_ack rx_ooo rx_sack]; try assumption; [unfold rcvd; f_equal; lia| | |intros _; exact EQ].
    - apply Forall_forall. intros s I. rewrite Forall_forall in O1, NU. destruct (O1 s I) as (Hd & _). split; [exact Hd|]. rewrite (NU s I). discriminate.
    - destruct SK1 as (bs & S1 & S2 & S3 & S4 & S5). assert (bs = []) as ->. { apply covers_none; [apply S3|]. intros y Hy. apply S5 in Hy. exact (NS y Hy). }
      exists []. split; [exact S1|]. split; [cbn; lia|]. split; [exact S3|]. split; [constructor|]. intros y. split; [intros (b & [] & _)|].
      intros (s & I & U & _). rewrite Forall_forall in NU. rewrite (NU s I) in U. discriminate. }
  eexists _, _, l1, true. split; [reflexivity|]. split; [exact HI2|]. split; [exists k; exact K|].
  pose proof (inv_ack_ok _ _ _ _ _ _ _ _ HC HI2) as AOK2.
  split; [apply Forall_app; split; [eapply Forall_impl; [|exact AK]; intros a Ha; eapply ack_ok_mono; [| |exact Ha]; unfold rcvd; lia|constructor; [|constructor]; eapply ack_ok_mono; [| |exact AOK2]; unfold rcvd; lia]|].
  split; [intros y Y H'; exfalso; apply (NS y); rewrite RN in H'; apply KP; [unfold rcvd in Y; lia|exact H']|].
  split; [auto|]. split; [auto|]. split.
  - intros Q1 Q2. rewrite RN in Q1. destruct (OOO Q1) as (_ & Q3 & _). destruct (Q3 Q2) as (a & -> & Q5). cbn [rx_sack]. destruct Q5 as [Q5|Q5]; [left; exact Q5|]. right. exists a. eexists. split; [reflexivity|exact Q5].
  - intros _ Q1 Q2. split; [apply PRG; lia|auto].
Qed.

(** One read. *)
Lemma pop_ok isn P T cap st d l fin shift len : 0 < cap < 536870912 -> Inv isn P T cap st d l fin -> 0 <= len < 4294967296 ->
  exists st' bs acks l', sock_recv st shift len = Some (st', (bs, acks)) /\ l = bs ++ l' /\ zlen bs = Z.min len (zlen l) /\
    Inv isn P T cap st' (d + zlen bs) l' fin /\ Forall (fun a => a = ack_of st) acks /\ ack_of st' = ack_of st /\ rx_ooo st' = rx_ooo st.
Proof.
  intros HC [R D A L O SK F] HN. pose proof R as (RQ & RS & RB & RP & RL). pose proof (zlen_nonneg l) as NL.
  unfold sock_recv. destruct (queue_pop_spec (rx_q st) l len RQ ltac:(lia)) as (q' & bs & r & E & H). rewrite E. cbn [obind fst snd].
  assert (G : l = bs ++ skipn (length bs) l /\ zlen bs = Z.min len (zlen l) /\ ring isn P cap q' (d + zlen bs) (skipn (length bs) l)).
  { destruct (Z.eqb_spec (zlen l) 0) as [E0|E0].
    - destruct H as (-> & -> & ->). apply zlen_zero in E0. subst l. split; [reflexivity|]. change (zlen (@nil Z)) with 0 in *. split; [lia|]. cbn [length skipn]. rewrite Z.add_0_r. exact R.
    - destruct H as (-> & -> & HQ & HB & HS). set (r := Z.min len (zlen l)) in *.
      assert (LF : length (firstn (Z.to_nat r) l) = Z.to_nat r) by (rewrite firstn_length; unfold zlen in *; lia).
      assert (LZ : zlen (firstn (Z.to_nat r) l) = r) by (unfold zlen at 1; rewrite LF; lia). rewrite LF, LZ. split; [symmetry; apply firstn_skipn|]. split; [reflexivity|].
      split; [exact HQ|]. split; [congruence|]. split.
      + intros NE. rewrite HB, RB by (intros ->; apply NE; apply skipn_nil). unfold sq, u32. rewrite Zplus_mod_idemp_l. f_equal. lia.
      + split; [|unfold zlen; rewrite skipn_length; unfold zlen in *; lia]. intros i b EN. rewrite nth_error_skipn in EN. apply RP in EN. replace (d + r + Z.of_nat i) with (d + Z.of_nat (Z.to_nat r + i)) by lia. exact EN. }
  destruct G as (G1 & G2 & G3). eexists _, bs, _, (skipn (length bs) l). split; [reflexivity|]. split; [exact G1|]. split; [exact G2|].
  assert (ZZ : zlen l = zlen bs + zlen (skipn (length bs) l)) by (rewrite G1 at 1; apply zlen_app). pose proof (zlen_nonneg bs).
  assert (RE : rcvd (d + zlen bs) (skipn (length bs) l) fin = rcvd d l fin) by (unfold rcvd; lia).
  split; [|split; [|split; reflexivity]].
  - constructor; cbn [rx_q rx_ack rx_ooo rx_sack]; rewrite ?RE; try assumption; [lia| |].
    + eapply Forall_impl; [|exact O]. intros s Hs. eapply slot_inv_mono; [| |exact Hs]; lia.
    + intros Hf. specialize (F Hf). lia.
  - destruct ((0 <? r) && (tcp_adv_win (queue_space (rx_q st)) shift <? tcp_adv_win (queue_space q') shift)); [repeat constructor|constructor].
Qed.
