(** C15: the byte stream delivered by a TCP connection is the peer's stream, whatever the
    arrival order.  C16: SACK blocks are truthful.  Plus memory safety of the receive path
    against any peer.

    Offsets: offset [x] of the peer's stream has sequence number irs + 1 + x mod 2^32,
    where irs is the peer's initial sequence number. *)
From Coq Require Import Permutation.
From Verif Require Import Base ListUtil Seq SeqProps Queue QueueProofs HttpUrl TcpRecv TcpSack TcpRecvProofs TcpRecvInv TcpRecvSafe.

(** ** Histories *)
Inductive rop :=
| RSeg (x : Z) (data : list Z) (fin : bool)    (* a segment carrying [data] from offset [x] arrives *)
| RPop (shift len : Z).                        (* the application calls recv; window scale [shift] *)
Definition ack := (Z * list (Z * Z))%type.     (* acknowledgement number, SACK blocks *)

Definition rstep (irs : Z) (st : rxs) (o : rop) : option (rxs * (list Z * list ack)) :=
  match o with
  | RSeg x data fin => do (st', acks) <- seg_input st (u32 (irs + 1 + x)) data fin; Some (st', ([], acks))
  | RPop shift len => sock_recv st shift len
  end.
(** Final state, bytes read by the application, ACKs sent. *)
Fixpoint rrun (irs : Z) (st : rxs) (os : list rop) : option (rxs * (list Z * list ack)) :=
  match os with
  | [] => Some (st, ([], []))
  | o :: os' =>
      do (st1, r1) <- rstep irs st o;
      do (st2, r2) <- rrun irs st1 os';
      Some (st2, (fst r1 ++ fst r2, snd r1 ++ snd r2))
  end.
(** Segments are not delayed so long that their 32-bit sequence number is ambiguous: each
    arrives within 2^29 of the number of bytes received so far ([d] read + queued). *)
Fixpoint timely (irs : Z) (st : rxs) (d : Z) (os : list rop) : Prop :=
  match os with
  | [] => True
  | o :: os' =>
      match o with
      | RSeg x data _ => Z.abs (x - (d + queue_len (rx_q st))) < 536870912 /\ zlen data <= 65535
      | RPop _ len => 0 <= len < 4294967296
      end /\
      forall st' out acks, rstep irs st o = Some (st', (out, acks)) -> timely irs st' (d + zlen out) os'
  end.
(** What a read of unlimited size would return now. *)
Definition readable (st : rxs) : list Z := match queue_pop (rx_q st) 4294967295 with Some (_, (bs, _)) => bs | None => [] end.
(** Byte [b] arrived at stream offset [y]. *)
Definition arrived (os : list rop) (y b : Z) : Prop :=
  exists x data fin i, In (RSeg x data fin) os /\ nth_error data i = Some b /\ y = x + Z.of_nat i.
(** Nothing is sent after the FIN: there is a stream length [T]. *)
Definition ends_at (T : Z) (os : list rop) : Prop :=
  forall x data fin, In (RSeg x data fin) os -> x + zlen data <= T /\ (fin = true -> x + zlen data = T).
(** Every segment is a piece of [stream], FINs sit at its end. *)
Definition segments_of (stream : list Z) (os : list rop) : Prop :=
  forall x data fin, In (RSeg x data fin) os ->
    mread stream x (zlen data) = Some data /\ (fin = true -> x + zlen data = zlen stream).
Definition fin_arrived (os : list rop) : Prop := exists x data, In (RSeg x data true) os.

(** ** The run keeps the invariant. *)
Lemma sq_irs irs x : sq (irs + 1) x = u32 (irs + 1 + x).
Proof. reflexivity. Qed.
Lemma init_inv mem cap irs P T : 0 < cap < 536870912 -> zlen mem = cap + 1 -> is_u32 irs ->
  Inv (irs + 1) P T cap (rx_init mem (cap + 1) irs) 0 [] false.
Proof.
  intros HC HM HI. constructor; cbn [rx_init rx_q rx_ack rx_ooo rx_sack].
  - split; [apply QWF_init; [lia|exact HM]|]. split; [reflexivity|]. split; [intros X; contradiction|]. split; [intros i b E; destruct i; discriminate|]. change (zlen (@nil Z)) with 0. lia.
  - lia.
  - unfold rcvd, sq. change (zlen (@nil Z)) with 0. replace (tcp_seq_inc irs 1) with (tcp_seq_inc (u32 irs) 1) by (f_equal; unfold u32, is_u32 in *; apply Z.mod_small; lia). rewrite seq_inc_adds by lia. f_equal. lia.
  - reflexivity.
  - repeat constructor; cbn [slot0 o_used]; discriminate.
  - exists []. split; [reflexivity|]. split; [cbn; lia|]. split; [split; constructor|]. split; [constructor|]. intros y. split; [intros (b & [] & _)|].
    intros (s & I & U & _). exfalso. repeat (destruct I as [<- |I]; [discriminate U|]). destruct I.
  - discriminate.
Qed.

Lemma seg_bytes_app P x a b : seg_bytes P x a -> seg_bytes P (x + zlen a) b -> seg_bytes P x (a ++ b).
Proof.
  intros A B i c E. destruct (Nat.lt_ge_cases i (length a)) as [L|L].
  - rewrite nth_error_app1 in E by exact L. apply A. exact E.
  - rewrite nth_error_app2 in E by exact L. apply B in E. replace (x + zlen a + Z.of_nat (i - length a)) with (x + Z.of_nat i) in E by (unfold zlen; lia). exact E.
Qed.
Lemma run_inv irs (P : Z -> Z -> Prop) T cap : 0 < cap < 536870912 -> (forall y b, P y b -> y < T) ->
  forall os st d l fin, Inv (irs + 1) P T cap st d l fin -> (forall x data fn, In (RSeg x data fn) os -> seg_bytes P x data) -> ends_at T os -> timely irs st d os ->
  exists st' out acks l' fin', rrun irs st os = Some (st', (out, acks)) /\ Inv (irs + 1) P T cap st' (d + zlen out) l' fin' /\
    (exists k, l ++ k = out ++ l') /\ Forall (ack_ok (irs + 1) P (rcvd d l fin) (rcvd (d + zlen out) l' fin')) acks /\
    (fin' = true -> fin = true \/ fin_arrived os) /\ rcvd d l fin <= rcvd (d + zlen out) l' fin' /\ seg_bytes P d out.
Proof.
  intros HC HP. induction os as [|o os IH]; intros st d l fin HI HB HE HT; cbn [rrun].
  - exists st, [], [], l, fin. change (zlen (@nil Z)) with 0. rewrite Z.add_0_r. split; [reflexivity|]. split; [exact HI|]. split; [exists []; rewrite app_nil_r; reflexivity|]. split; [constructor|]. split; [auto|]. split; [lia|]. intros i b E. destruct i; discriminate.
  - cbn [timely] in HT. destruct HT as (HT1 & HT2).
    assert (HE' : ends_at T os) by (intros x data f I; apply (HE x data f); right; exact I).
    assert (HB' : forall x data fn, In (RSeg x data fn) os -> seg_bytes P x data) by (intros x data f I; apply (HB x data f); right; exact I).
    assert (QL : queue_len (rx_q st) = zlen l) by (destruct HI as [(RQ & _) _ _ _ _ _ _]; apply queue_len_spec; exact RQ).
    destruct o as [x data fn|shift len]; cbn [rstep] in *.
    + destruct HT1 as (HT1 & HL1). rewrite QL in HT1. destruct (HE x data fn (or_introl eq_refl)) as (E1 & E2).
      destruct (seg_ok (irs + 1) P T cap st d l fin x data fn HC HP HI (HB x data fn (or_introl eq_refl)) E2 E1 HT1 HL1) as (st1 & acks1 & l1 & fin1 & E & S1 & (k1 & S2) & S3 & _ & S4 & S5 & _).
      rewrite sq_irs in E. rewrite E in *. cbn [obind] in *. specialize (HT2 st1 [] acks1 eq_refl). change (zlen (@nil Z)) with 0 in HT2. rewrite Z.add_0_r in HT2.
      destruct (IH st1 d l1 fin1 S1 HB' HE' HT2) as (st2 & out & acks2 & l2 & fin2 & R1 & R2 & (k2 & R3) & R4 & R5 & R6 & R7). rewrite R1. cbn [obind fst snd].
      assert (R0 : rcvd d l fin <= rcvd d l1 fin1) by (unfold rcvd; rewrite S2, zlen_app; pose proof (zlen_nonneg k1); destruct fin; [rewrite (S4 eq_refl)|destruct fin1]; lia).
      eexists st2, _, _, l2, fin2. split; [reflexivity|]. cbn [app]. split; [exact R2|]. split; [exists (k1 ++ k2); rewrite app_assoc, <- S2; exact R3|]. split.
      * apply Forall_app. split.
        -- eapply Forall_impl; [|exact S3]. intros a A. eapply ack_ok_mono; [| |exact A]; lia.
        -- eapply Forall_impl; [|exact R4]. intros a A. eapply ack_ok_mono; [| |exact A]; lia.
      * split; [|split; [lia|exact R7]]. intros F. destruct (R5 F) as [F'|F']; [destruct (S5 F') as [?|F2]; [left; assumption|right; exists x, data; left; congruence]|]. right. destruct F' as (x' & d' & I'). exists x', d'. right. exact I'.
    + destruct (pop_ok (irs + 1) P T cap st d l fin shift len HC HI HT1) as (st1 & bs & acks1 & l1 & E & S1 & S2 & S3 & S4 & _). rewrite E in *. cbn [obind] in *. specialize (HT2 st1 bs acks1 eq_refl).
      destruct (IH st1 (d + zlen bs) l1 fin S3 HB' HE' HT2) as (st2 & out & acks2 & l2 & fin2 & R1 & R2 & (k2 & R3) & R4 & R5 & R6 & R7). rewrite R1. cbn [obind fst snd].
      eexists st2, (bs ++ out), _, l2, fin2. split; [reflexivity|]. rewrite zlen_app, Z.add_assoc. split; [exact R2|]. split; [exists k2; rewrite S1, <- !app_assoc, R3; reflexivity|].
      assert (RN : rcvd (d + zlen bs) l1 fin = rcvd d l fin) by (unfold rcvd; rewrite S1, zlen_app; lia). rewrite RN in R4.
      split; [|split; [intros F; destruct (R5 F) as [F'|(x' & d' & I')]; [left; exact F'|right; exists x', d'; right; exact I']|split; [lia|]]].
      2:{ destruct HI as [(_ & _ & _ & RP & _) _ _ _ _ _ _]. apply seg_bytes_app; [|exact R7]. intros i b EN. apply RP. rewrite S1, nth_error_app1; [exact EN|]. apply nth_error_Some. congruence. }
      apply Forall_app. split; [|exact R4]. eapply Forall_impl; [|exact S4]. intros a ->. eapply ack_ok_mono; [| |apply (inv_ack_ok _ _ _ _ _ _ _ _ HC HI)]; [lia|]. lia.
Qed.
Lemma readable_inv isn P T cap st d l fin : 0 < cap < 536870912 -> Inv isn P T cap st d l fin -> readable st = l.
Proof.
  intros HC [(RQ & RS & _ & _ & RL) _ _ _ _ _ _]. unfold readable. destruct (queue_pop_spec (rx_q st) l 4294967295 RQ ltac:(lia)) as (q' & bs & r & E & H). rewrite E.
  destruct (Z.eqb_spec (zlen l) 0) as [E0|E0]; [destruct H as (_ & -> & _); symmetry; apply zlen_zero; exact E0|]. destruct H as (-> & -> & _).
  apply firstn_all2. unfold zlen in *. lia.
Qed.

(** ** C15 *)
(** For every arrival order, duplication, overlap and loss of the pieces of [stream], and
    every interleaving with reads: the bytes read followed by the bytes readable now are a
    prefix of [stream]; the acknowledgement number is exactly the length of that prefix,
    plus one once the FIN has been accepted, and the FIN is accepted only after the whole
    stream. *)
Theorem tcp_stream_integrity : forall mem cap irs stream os,
  0 < cap < 536870912 -> zlen mem = cap + 1 -> is_u32 irs ->
  segments_of stream os -> timely irs (rx_init mem (cap + 1) irs) 0 os ->
  exists st out acks rest (fin : bool),
    rrun irs (rx_init mem (cap + 1) irs) os = Some (st, (out, acks)) /\
    stream = out ++ readable st ++ rest /\ zlen (readable st) <= cap /\
    fst (ack_of st) = u32 (irs + 1 + zlen out + zlen (readable st) + (if fin then 1 else 0)) /\
    (fin = true -> rest = [] /\ fin_arrived os).
Proof.
  intros mem cap irs stream os HC HM HI HS HT.
  set (P := fun y b : Z => 0 <= y /\ nth_error stream (Z.to_nat y) = Some b).
  assert (HP : forall y b, P y b -> y < zlen stream).
  { intros y b (Y & E). assert (N : nth_error stream (Z.to_nat y) <> None) by congruence. apply nth_error_Some in N. unfold zlen. lia. }
  destruct (run_inv irs P (zlen stream) cap HC HP os (rx_init mem (cap + 1) irs) 0 [] false (init_inv mem cap irs P (zlen stream) HC HM HI)) as (st & out & acks & l & fin & R1 & R2 & (k & R3) & _ & R5 & _ & R7).
  - intros x data fn I. destruct (HS x data fn I) as (E & _). intros i b EN. rewrite (mread_nth _ _ _ _ _ E) in EN. destruct (Z.of_nat i <? zlen data); [|discriminate].
    pose proof (mread_some _ _ _ _ E) as (X & _). split; [lia|]. rewrite <- EN. f_equal. lia.
  - intros x data fn I. destruct (HS x data fn I) as (E & F). pose proof (mread_some _ _ _ _ E) as (_ & _ & X & _). split; [lia|exact F].
  - exact HT.
  - pose proof (readable_inv _ _ _ _ _ _ _ _ HC R2) as RD. pose proof R2 as [(RQ & RS & RB & RP & RL) D A L O SK F].
    assert (SB : seg_bytes P 0 (out ++ l)) by (apply seg_bytes_app; [exact R7|exact RP]).
    assert (PX : exists rest, stream = (out ++ l) ++ rest).
    { exists (skipn (length (out ++ l)) stream). rewrite <- (firstn_skipn (length (out ++ l)) stream) at 1. f_equal. apply nth_error_ext. intros i.
      destruct (Nat.lt_ge_cases i (length (out ++ l))) as [LT|GE].
      - rewrite nth_error_firstn_lt by exact LT. destruct (nth_error (out ++ l) i) as [b|] eqn:EN; [|apply nth_error_None in EN; lia].
        destruct (SB i b EN) as (_ & E). rewrite <- E. f_equal. lia.
      - rewrite (proj2 (nth_error_None (out ++ l) i)) by exact GE. apply nth_error_None. rewrite firstn_length. lia. }
    destruct PX as (rest & PX). exists st, out, acks, rest, fin. rewrite RD. split; [exact R1|]. split; [rewrite app_assoc; exact PX|]. split; [exact RL|].
    split; [unfold ack_of; cbn [fst]; rewrite A, sq_irs; f_equal; unfold rcvd; lia|]. intros HF. split.
    + specialize (F HF). rewrite PX, !zlen_app in F. pose proof (zlen_nonneg rest). apply zlen_zero. lia.
    + destruct (R5 HF) as [X|X]; [discriminate X|exact X].
Qed.

(** The same without assuming that the segments agree with one stream (a peer or attacker
    that sends different bytes for the same offset): every byte delivered at position [i]
    was carried at offset [i] by some segment that arrived; positions are never skipped,
    repeated or shifted. *)
Lemma run_arrived mem cap irs T os : 0 < cap < 536870912 -> zlen mem = cap + 1 -> is_u32 irs ->
  ends_at T os -> timely irs (rx_init mem (cap + 1) irs) 0 os ->
  exists st out acks l fin, rrun irs (rx_init mem (cap + 1) irs) os = Some (st, (out, acks)) /\
    Inv (irs + 1) (arrived os) T cap st (zlen out) l fin /\
    Forall (ack_ok (irs + 1) (arrived os) 0 (rcvd (zlen out) l fin)) acks /\ (fin = true -> fin_arrived os) /\ seg_bytes (arrived os) 0 (out ++ l).
Proof.
  intros HC HM HI HE HT.
  assert (HP : forall y b, arrived os y b -> y < T).
  { intros y b (x & data & fin & i & I & EN & ->). destruct (HE x data fin I) as (E & _). assert (N : nth_error data i <> None) by congruence. apply nth_error_Some in N. unfold zlen in *. lia. }
  destruct (run_inv irs (arrived os) T cap HC HP os (rx_init mem (cap + 1) irs) 0 [] false (init_inv mem cap irs _ T HC HM HI)) as (st & out & acks & l & fin & R1 & R2 & _ & R4 & R5 & _ & R7).
  - intros x data fn I i b EN. exists x, data, fn, i. auto.
  - exact HE.
  - exact HT.
  - cbn [Z.add] in R2, R4. exists st, out, acks, l, fin. split; [exact R1|]. split; [exact R2|]. split; [exact R4|].
    split; [intros F; destruct (R5 F) as [X|X]; [discriminate X|exact X]|]. apply seg_bytes_app; [exact R7|]. destruct R2 as [(_ & _ & _ & RP & _) _ _ _ _ _ _]. exact RP.
Qed.
Theorem tcp_delivers_only_received : forall mem cap irs T os,
  0 < cap < 536870912 -> zlen mem = cap + 1 -> is_u32 irs -> ends_at T os -> timely irs (rx_init mem (cap + 1) irs) 0 os ->
  exists st out acks, rrun irs (rx_init mem (cap + 1) irs) os = Some (st, (out, acks)) /\
    forall i b, nth_error (out ++ readable st) i = Some b -> arrived os (Z.of_nat i) b.
Proof.
  intros mem cap irs T os HC HM HI HE HT. destruct (run_arrived mem cap irs T os HC HM HI HE HT) as (st & out & acks & l & fin & R1 & R2 & _ & _ & R5).
  exists st, out, acks. split; [exact R1|]. rewrite (readable_inv _ _ _ _ _ _ _ _ HC R2). intros i b E. exact (R5 i b E).
Qed.

(** Progress: after any history, a segment that starts at or before the next byte expected,
    extends past it and fits the free space is taken entirely; if it carries the FIN, the
    FIN is taken too. *)
Theorem tcp_in_order_progress : forall mem cap irs T os x data fin st out acks,
  0 < cap < 536870912 -> zlen mem = cap + 1 -> is_u32 irs -> ends_at T (os ++ [RSeg x data fin]) ->
  timely irs (rx_init mem (cap + 1) irs) 0 os -> rrun irs (rx_init mem (cap + 1) irs) os = Some (st, (out, acks)) ->
  let n := zlen out + zlen (readable st) in
  fst (ack_of st) = u32 (irs + 1 + n) ->                    (* no FIN yet *)
  let seglen := zlen data + (if fin then 1 else 0) in
  x <= n < x + seglen -> x + seglen - n <= cap - zlen (readable st) -> zlen data <= 65535 -> n - x < 536870912 ->
  exists st' acks', rstep irs st (RSeg x data fin) = Some (st', ([], acks')) /\
    (exists k, readable st' = readable st ++ k) /\ x + zlen data <= zlen out + zlen (readable st') /\
    fst (ack_of st') = u32 (irs + 1 + zlen out + zlen (readable st') + (if fin then 1 else 0)).
Proof.
  intros mem cap irs T os x data fin st out acks HC HM HI HE HT HR n HA seglen HX HF HL HN.
  assert (HE' : ends_at T os) by (intros x' d' f' I; apply (HE x' d' f'); apply in_or_app; left; exact I).
  destruct (HE x data fin) as (E1 & E2); [apply in_or_app; right; left; reflexivity|].
  destruct (run_arrived mem cap irs T os HC HM HI HE' HT) as (st0 & out0 & acks0 & l & f & R1 & R2 & _ & _ & _). rewrite HR in R1. injection R1 as <- <- <-.
  unfold n in *. clear n. rewrite (readable_inv _ _ _ _ _ _ _ _ HC R2) in *.
  assert (f = false).
  { destruct f; [|reflexivity]. exfalso. destruct R2 as [_ _ A _ _ _ _]. unfold ack_of in HA. cbn [fst] in HA. rewrite A in HA. unfold rcvd, sq, u32 in HA. lia. }
  subst f.
  set (P := fun y b => arrived os y b \/ exists i, nth_error data i = Some b /\ y = x + Z.of_nat i).
  assert (HP : forall y b, P y b -> y < T).
  { intros y b [(x' & d' & f' & i & I & EN & ->)|(i & EN & ->)]; [destruct (HE' x' d' f' I) as (E & _); assert (N : nth_error d' i <> None) by congruence|assert (N : nth_error data i <> None) by congruence]; apply nth_error_Some in N; unfold zlen in *; lia. }
  assert (HI2 : Inv (irs + 1) P T cap st (zlen out) l false).
  { destruct R2 as [(RQ & RS & RB & RP & RL) D A L O SK F]. constructor; try assumption.
    - split; [exact RQ|]. split; [exact RS|]. split; [exact RB|]. split; [|exact RL]. intros i b E. left. apply RP. exact E.
    - eapply Forall_impl; [|exact O]. intros s (S1 & S2). split; [exact S1|]. intros U. destruct (S2 U) as (y & Y1 & Y2 & Y3 & Y4). exists y. split; [exact Y1|]. split; [exact Y2|]. split; [exact Y3|].
      intros i Hi. destruct (Y4 i Hi) as (b & B1 & B2). exists b. split; [exact B1|]. left. exact B2. }
  destruct (seg_ok (irs + 1) P T cap st (zlen out) l false x data fin HC HP HI2) as (st' & acks' & l' & f' & E & S1 & (k & S2) & _ & _ & _ & S5 & _ & S6);
    [intros i b EN; right; exists i; auto|exact E2|exact E1|lia|exact HL|].
  exists st', acks'. cbn [rstep]. rewrite sq_irs in E. rewrite E. cbn [obind]. split; [reflexivity|]. rewrite (readable_inv _ _ _ _ _ _ _ _ HC S1). split; [exists k; exact S2|].
  destruct (S6 eq_refl) as (S7 & S8); [unfold seglen in *; lia|unfold seglen in *; lia|]. split; [exact S7|]. destruct S1 as [_ _ A _ _ _ F].
  unfold ack_of. cbn [fst]. rewrite A, sq_irs. f_equal. unfold rcvd. destruct fin; [rewrite (S8 eq_refl); lia|]. destruct f'; [destruct (S5 eq_refl); discriminate|lia].
Qed.

(** ** C16 *)
(** Blocks are given here in stream offsets [bs]; on the wire they are the corresponding
    sequence numbers.  At most four; pairwise disjoint and not even adjacent; none reaches
    below the cumulative acknowledgement [m] carried by the same ACK; every byte they cover
    has arrived. *)
Definition wire (irs : Z) (b : Z * Z) : Z * Z := (u32 (irs + 1 + fst b), u32 (irs + 1 + snd b)).
Definition sack_truthful (irs : Z) (os : list rop) (a : ack) (m : Z) (bs : list (Z * Z)) : Prop :=
  fst a = u32 (irs + 1 + m) /\ snd a = map (wire irs) bs /\ (length bs <= 4)%nat /\
  Forall (fun b => m <= fst b < snd b) bs /\
  (forall i j b c, i <> j -> nth_error bs i = Some b -> nth_error bs j = Some c -> snd b < fst c \/ snd c < fst b) /\
  (forall b y, In b bs -> fst b <= y < snd b -> exists v, arrived os y v).

Lemma apart_nth bs : apart bs -> forall i j b c, i <> j -> nth_error bs i = Some b -> nth_error bs j = Some c -> snd b < fst c \/ snd c < fst b.
Proof.
  intros [_ H]. induction H as [|a l HA HO IH]; intros i j b c D Ei Ej; [destruct i; discriminate|]. rewrite Forall_forall in HA.
  destruct i as [|i], j as [|j]; cbn [nth_error] in *; [congruence| | |eapply IH; [|exact Ei|exact Ej]; congruence].
  - assert (a = b) by congruence. subst. apply (HA c). eapply nth_error_In. exact Ej.
  - assert (a = c) by congruence. subst. pose proof (HA b (nth_error_In _ _ Ei)) as X. cbv beta in X. tauto.
Qed.
Lemma ack_ok_truthful irs os lo hi a : ack_ok (irs + 1) (arrived os) lo hi a -> exists m bs, lo <= m <= hi /\ sack_truthful irs os a m bs.
Proof.
  intros (m & bs & HM & A1 & A2 & A3 & A4 & A5 & A6). exists m, bs. split; [exact HM|]. split; [exact A1|]. split; [exact A2|]. split; [exact A3|].
  split. { destruct A4 as [A4 _]. rewrite Forall_forall in *. intros b I. specialize (A4 b I). specialize (A5 b I). cbv beta in *. lia. }
  split; [apply apart_nth; exact A4|]. intros b y I Y. apply A6. exists b. auto.
Qed.
Theorem tcp_sack_truthful : forall mem cap irs T os,
  0 < cap < 536870912 -> zlen mem = cap + 1 -> is_u32 irs -> ends_at T os -> timely irs (rx_init mem (cap + 1) irs) 0 os ->
  exists st out acks, rrun irs (rx_init mem (cap + 1) irs) os = Some (st, (out, acks)) /\
    (forall a, In a acks -> exists m bs, 0 <= m <= zlen out + zlen (readable st) + 1 /\ sack_truthful irs os a m bs) /\
    (exists m bs, zlen out + zlen (readable st) <= m <= zlen out + zlen (readable st) + 1 /\ sack_truthful irs os (ack_of st) m bs).
Proof.
  intros mem cap irs T os HC HM HI HE HT. destruct (run_arrived mem cap irs T os HC HM HI HE HT) as (st & out & acks & l & fin & R1 & R2 & R3 & _ & R5).
  exists st, out, acks. split; [exact R1|]. rewrite (readable_inv _ _ _ _ _ _ _ _ HC R2). split.
  - intros a I. rewrite Forall_forall in R3. destruct (ack_ok_truthful _ _ _ _ _ (R3 a I)) as (m & bs & M & S). exists m, bs. split; [unfold rcvd in M; destruct fin; lia|exact S].
  - destruct (ack_ok_truthful _ _ _ _ _ (inv_ack_ok _ _ _ _ _ _ _ _ HC R2)) as (m & bs & M & S). exists m, bs. split; [unfold rcvd in M; destruct fin; lia|exact S].
Qed.

(** RFC 2018: the ACK answering an out-of-order segment has, as its first block, the one
    that contains that segment (unless the segment could not be stored, and then the SACK
    information does not change). *)
Theorem tcp_sack_first_block : forall mem cap irs T os x data fin st out acks,
  0 < cap < 536870912 -> zlen mem = cap + 1 -> is_u32 irs -> ends_at T (os ++ [RSeg x data fin]) ->
  timely irs (rx_init mem (cap + 1) irs) 0 (os ++ [RSeg x data fin]) -> rrun irs (rx_init mem (cap + 1) irs) os = Some (st, (out, acks)) ->
  zlen out + zlen (readable st) + 1 < x -> data <> [] ->
  exists st' acks', rstep irs st (RSeg x data fin) = Some (st', ([], acks')) /\
    (snd (ack_of st') = snd (ack_of st) \/
     exists a rest l r blocks, acks' = a :: rest /\ snd a = wire irs (l, r) :: blocks /\ l <= x /\ x + zlen data <= r).
Proof.
  intros mem cap irs T os x data fin st out acks HC HM HI HE HT HR HX NE.
  assert (HE' : ends_at T os) by (intros x' d' f' I; apply (HE x' d' f'); apply in_or_app; left; exact I).
  destruct (HE x data fin) as (E1 & E2); [apply in_or_app; right; left; reflexivity|].
  assert (TL : forall os st d st1 out1 acks1, timely irs st d (os ++ [RSeg x data fin]) -> rrun irs st os = Some (st1, (out1, acks1)) ->
     timely irs st d os /\ Z.abs (x - (d + zlen out1 + queue_len (rx_q st1))) < 536870912 /\ zlen data <= 65535).
  { clear. induction os as [|o os IH]; intros st d st1 out1 acks1 HT HR; cbn [app timely rrun] in *.
    - injection HR as <- <- <-. destruct HT as ((A & B) & _). change (zlen (@nil Z)) with 0. split; [exact I|]. split; [|exact B]. rewrite Z.add_0_r. exact A.
    - destruct HT as (A & B). destruct (rstep irs st o) as [[st2 [o2 a2]]|] eqn:E; cbn [obind] in HR; [|discriminate]. destruct (rrun irs st2 os) as [[st3 [o3 a3]]|] eqn:E3; cbn [obind fst snd] in HR; [|discriminate].
      injection HR as <- <- <-. destruct (IH st2 (d + zlen o2) st3 o3 a3 (B st2 o2 a2 eq_refl) E3) as (C1 & C2 & C3). rewrite zlen_app. split.
      + split; [exact A|]. intros st' out' acks' X. injection X as <- <- <-. exact C1.
      + split; [|exact C3]. replace (d + (zlen o2 + zlen o3)) with (d + zlen o2 + zlen o3) by lia. exact C2. }
  destruct (TL os _ 0 st out acks HT HR) as (HT' & N1 & N2).
  destruct (run_arrived mem cap irs T os HC HM HI HE' HT') as (st0 & out0 & acks0 & l & f & R1 & R2 & _ & _ & _). rewrite HR in R1. injection R1 as <- <- <-.
  rewrite (readable_inv _ _ _ _ _ _ _ _ HC R2) in *.
  assert (QL : queue_len (rx_q st) = zlen l) by (destruct R2 as [(RQ & _) _ _ _ _ _ _]; apply queue_len_spec; exact RQ). rewrite QL in N1.
  set (P := fun y b => arrived os y b \/ exists i, nth_error data i = Some b /\ y = x + Z.of_nat i).
  assert (HP : forall y b, P y b -> y < T).
  { intros y b [(x' & d' & f' & i & I & EN & ->)|(i & EN & ->)]; [destruct (HE' x' d' f' I) as (E & _); assert (N : nth_error d' i <> None) by congruence|assert (N : nth_error data i <> None) by congruence]; apply nth_error_Some in N; unfold zlen in *; lia. }
  assert (HI2 : Inv (irs + 1) P T cap st (zlen out) l f).
  { destruct R2 as [(RQ & RS & RB & RP & RL) D A L O SK F]. constructor; try assumption.
    - split; [exact RQ|]. split; [exact RS|]. split; [exact RB|]. split; [|exact RL]. intros i b E. left. apply RP. exact E.
    - eapply Forall_impl; [|exact O]. intros s (S1 & S2). split; [exact S1|]. intros U. destruct (S2 U) as (y & Y1 & Y2 & Y3 & Y4). exists y. split; [exact Y1|]. split; [exact Y2|]. split; [exact Y3|].
      intros i Hi. destruct (Y4 i Hi) as (b & B1 & B2). exists b. split; [exact B1|]. left. exact B2. }
  destruct (seg_ok (irs + 1) P T cap st (zlen out) l f x data fin HC HP HI2) as (st' & acks' & l' & f' & E & S1 & _ & _ & _ & _ & _ & S6 & _);
    [intros i b EN; right; exists i; auto|exact E2|exact E1|lia|exact N2|].
  exists st', acks'. cbn [rstep]. rewrite sq_irs in E. rewrite E. cbn [obind]. split; [reflexivity|].
  destruct S6 as [S6|(a & rest & -> & (lo & hi & bl & B1 & B2 & B3))]; [unfold rcvd; destruct f; lia| |left; exact S6|].
  - pose proof (zlen_nonneg data). destruct (Z.eq_dec (zlen data) 0) as [Z0|]; [apply zlen_zero in Z0; contradiction|lia].
  - right. exists a, rest, lo, hi, bl. split; [reflexivity|]. split; [exact B1|]. lia.
Qed.

(** What has been SACKed is never taken back: a byte covered by the SACK information stays
    covered until it is cumulatively acknowledged. *)
Theorem tcp_no_reneging : forall mem cap irs T os o st out acks,
  0 < cap < 536870912 -> zlen mem = cap + 1 -> is_u32 irs -> ends_at T (os ++ [o]) ->
  timely irs (rx_init mem (cap + 1) irs) 0 (os ++ [o]) -> rrun irs (rx_init mem (cap + 1) irs) os = Some (st, (out, acks)) ->
  exists st' out' acks' bs bs' m, rstep irs st o = Some (st', (out', acks')) /\
    snd (ack_of st) = map (wire irs) bs /\ snd (ack_of st') = map (wire irs) bs' /\ fst (ack_of st') = u32 (irs + 1 + m) /\
    zlen out + zlen out' + zlen (readable st') <= m <= zlen out + zlen out' + zlen (readable st') + 1 /\
    forall y, m <= y -> (exists b, In b bs /\ fst b <= y < snd b) -> exists b, In b bs' /\ fst b <= y < snd b.
Proof.
  intros mem cap irs T os o st out acks HC HM HI HE HT HR.
  assert (HE' : ends_at T os) by (intros x' d' f' I; apply (HE x' d' f'); apply in_or_app; left; exact I).
  assert (TL : forall os st d st1 out1 acks1, timely irs st d (os ++ [o]) -> rrun irs st os = Some (st1, (out1, acks1)) ->
     timely irs st d os /\ timely irs st1 (d + zlen out1) [o]).
  { clear. induction os as [|a os IH]; intros st d st1 out1 acks1 HT HR; cbn [app rrun] in *.
    - injection HR as <- <- <-. change (zlen (@nil Z)) with 0. rewrite Z.add_0_r. split; [exact I|exact HT].
    - cbn [timely] in HT. destruct HT as (A & B). destruct (rstep irs st a) as [[st2 [o2 a2]]|] eqn:E; cbn [obind] in HR; [|discriminate]. destruct (rrun irs st2 os) as [[st3 [o3 a3]]|] eqn:E3; cbn [obind fst snd] in HR; [|discriminate].
      injection HR as <- <- <-. destruct (IH st2 (d + zlen o2) st3 o3 a3 (B st2 o2 a2 eq_refl) E3) as (C1 & C2). rewrite zlen_app. split.
      + cbn [timely]. split; [exact A|]. intros st' out' acks' X. rewrite E in X. injection X as <- <- <-. exact C1.
      + replace (d + (zlen o2 + zlen o3)) with (d + zlen o2 + zlen o3) by lia. exact C2. }
  destruct (TL os _ 0 st out acks HT HR) as (HT' & N1 & _). cbn [Z.add] in N1.
  set (P := arrived (os ++ [o])).
  assert (HP : forall y b, P y b -> y < T).
  { intros y b (x & data & fin & i & I & EN & ->). destruct (HE x data fin I) as (E & _). assert (N : nth_error data i <> None) by congruence. apply nth_error_Some in N. unfold zlen in *. lia. }
  destruct (run_inv irs P T cap HC HP os (rx_init mem (cap + 1) irs) 0 [] false (init_inv mem cap irs _ T HC HM HI)) as (st0 & out0 & acks0 & l & fin & R1 & R2 & _);
    [intros x data fn I i b EN; exists x, data, fn, i; split; [apply in_or_app; left; exact I|auto]|exact HE'|exact HT'|]. rewrite HR in R1. injection R1 as <- <- <-. cbn [Z.add] in R2.
  pose proof R2 as [(RQ & RS & RB & RP & RL) D A L O (bs & SK1 & SK2 & SK3 & SK4 & SK5) F].
  rewrite (queue_len_spec _ _ RQ) in N1.
  destruct o as [x data fn|shift len]; cbn [rstep].
  - destruct (HE x data fn) as (E1 & E2); [apply in_or_app; right; left; reflexivity|].
    destruct (seg_ok (irs + 1) P T cap st (zlen out) l fin x data fn HC HP R2) as (st' & acks' & l' & f' & E & S1 & _ & _ & S4 & _);
      [intros i b EN; exists x, data, fn, i; split; [apply in_or_app; right; left; reflexivity|auto]|exact E2|exact E1|lia|lia|].
    rewrite sq_irs in E. rewrite E. cbn [obind]. pose proof (readable_inv _ _ _ _ _ _ _ _ HC S1) as RI. destruct S1 as [_ _ A' _ _ (bs' & T1 & T2 & T3 & T4 & T5) _].
    exists st', [], acks', bs, bs', (rcvd (zlen out) l' f'). rewrite RI. split; [reflexivity|]. split; [exact SK1|]. split; [exact T1|]. split; [exact A'|]. change (zlen (@nil Z)) with 0. split; [unfold rcvd; destruct f'; lia|].
    intros y Y C. apply T5. apply S4; [exact Y|]. apply SK5. exact C.
  - destruct (pop_ok (irs + 1) P T cap st (zlen out) l fin shift len HC R2 N1) as (st' & o' & acks' & l' & E & S1 & S2 & S3 & S4 & S5 & S6). rewrite E.
    exists st', o', acks', bs, bs, (rcvd (zlen out) l fin). rewrite (readable_inv _ _ _ _ _ _ _ _ HC S3). split; [reflexivity|]. split; [exact SK1|]. rewrite S5. split; [exact SK1|].
    split; [exact A|]. assert (ZL : zlen l = zlen o' + zlen l') by (rewrite S1, zlen_app; reflexivity). unfold rcvd. split; [destruct fin; lia|]. auto.
Qed.

(** A block may start exactly at the cumulative acknowledgement: a cached segment that does
    not fit the free space of the ring stays cached after the hole before it is filled. *)
Theorem tcp_sack_strictly_above_ack_refuted :
  exists mem cap irs stream os, 0 < cap < 536870912 /\ zlen mem = cap + 1 /\ is_u32 irs /\ segments_of stream os /\
    timely irs (rx_init mem (cap + 1) irs) 0 os /\
    exists st acks, rrun irs (rx_init mem (cap + 1) irs) os = Some (st, ([], acks)) /\
      ack_of st = (u32 (irs + 1 + 5), [(u32 (irs + 1 + 5), u32 (irs + 1 + 13))]).
Proof.
  exists (repeat 0 11), 10, 1000, (map Z.of_nat (seq 0 13)), [RSeg 5 (map Z.of_nat (seq 5 8)) false; RSeg 0 (map Z.of_nat (seq 0 5)) false].
  split; [lia|]. split; [reflexivity|]. split; [unfold is_u32; lia|]. split.
  { intros x data fin [E|[E|[]]]; inversion E; subst; (split; [reflexivity|discriminate]). }
  split.
  { cbn [timely]. split; [split; [vm_compute; reflexivity|vm_compute; discriminate]|]. intros st' out acks H. vm_compute in H. injection H as <- <- <-. split; [split; [vm_compute; reflexivity|vm_compute; discriminate]|]. intros ? ? ? _. exact I. }
  match goal with |- exists st acks, ?r = _ /\ _ => let v := eval vm_compute in r in match v with Some (?s, (_, ?a)) => exists s, a end end.
  split; [vm_compute; reflexivity|reflexivity].
Qed.

(** ** Memory safety against any peer *)
(** No hypothesis on the segments at all: any sequence numbers, any lengths, overlapping,
    contradictory, past the FIN.  The receive path never leaves its buffers, never loops
    forever, never holds more than [cap] bytes and never lists more than four blocks. *)
Inductive hop := HSeg (seqno : Z) (data : list Z) (fin : bool) | HPop (shift len : Z).
Definition hop_ok (o : hop) : Prop := match o with HSeg s _ _ => is_u32 s | HPop _ len => 0 <= len < 4294967296 end.
Fixpoint hrun (st : rxs) (os : list hop) : option (rxs * list ack) :=
  match os with
  | [] => Some (st, [])
  | HSeg s data fin :: os' => do (st1, a1) <- seg_input st s data fin; do (st2, a2) <- hrun st1 os'; Some (st2, a1 ++ a2)
  | HPop shift len :: os' => do (st1, r) <- sock_recv st shift len; do (st2, a2) <- hrun st1 os'; Some (st2, snd r ++ a2)
  end.
Theorem tcp_receive_memory_safe : forall mem cap irs os,
  0 < cap < 536870912 -> zlen mem = cap + 1 -> is_u32 irs -> Forall hop_ok os ->
  exists st acks, hrun (rx_init mem (cap + 1) irs) os = Some (st, acks) /\
    0 <= queue_len (rx_q st) <= cap /\ Forall (fun a => (length (snd a) <= 4)%nat) acks.
Proof.
  intros mem cap irs os HC HM HI HO.
  assert (G : forall os st, Forall hop_ok os -> Safe cap st -> exists st' acks, hrun st os = Some (st', acks) /\ Safe cap st' /\ Forall (fun a : ack => (length (snd a) <= 4)%nat) acks).
  { clear os HO. induction os as [|o os IH]; intros st HO HS; cbn [hrun].
    - exists st, []. split; [reflexivity|]. split; [exact HS|constructor].
    - inversion HO as [|? ? H1 H2]; subst. destruct o as [s data fin|shift len]; cbn [hop_ok] in H1.
      + destruct (seg_input_safe cap st s data fin HS H1) as (st1 & a1 & -> & S1 & F1). cbn [obind]. destruct (IH st1 H2 S1) as (st2 & a2 & -> & S2 & F2). cbn [obind]. exists st2, (a1 ++ a2). split; [reflexivity|]. split; [exact S2|]. apply Forall_app. auto.
      + destruct (sock_recv_safe cap st shift len HS H1) as (st1 & bs & a1 & -> & S1 & F1 & _). cbn [obind snd]. destruct (IH st1 H2 S1) as (st2 & a2 & -> & S2 & F2). cbn [obind]. exists st2, (a1 ++ a2). split; [reflexivity|]. split; [exact S2|]. apply Forall_app. auto. }
  destruct (G os (rx_init mem (cap + 1) irs) HO) as (st & acks & E & S & F).
  { split; [exists []; apply QWF_init; [lia|exact HM]|]. cbn [rx_init rx_q rx_ack rx_ooo rx_sack]. split; [reflexivity|]. split; [apply inc_u32|]. split; [reflexivity|]. split; [repeat constructor; cbn; discriminate|cbn; lia]. }
  exists st, acks. split; [exact E|]. split; [|exact F]. destruct S as ((l & Q) & Q2 & _). rewrite (queue_len_spec _ _ Q). pose proof (zlen_nonneg l). destruct (queue_space_spec _ _ Q) as [SP SP0]. lia.
Qed.

(** Non-vacuity: a 16-byte stream, ring of 12, arrives as 8..16+FIN, 2..10, 0..4 across the
    32-bit wrap (irs = 2^32 - 5), with reads in between; everything is delivered and the FIN
    acknowledged. *)
Definition ex_stream : list Z := map Z.of_nat (seq 100 16).
Definition ex_ops : list rop :=
  [RSeg 8 (firstn 4 (skipn 8 ex_stream)) false; RSeg 2 (firstn 8 (skipn 2 ex_stream)) false; RSeg 0 (firstn 4 ex_stream) false;
   RPop 0 7; RSeg 10 (skipn 10 ex_stream) true; RPop 0 100].
Example ex_segments : segments_of ex_stream ex_ops.
Proof.
  intros x data fin I. unfold ex_ops in I. cbn [In] in I. destruct I as [E|[E|[E|[E|[E|[E|[]]]]]]]; try discriminate E;
    injection E as <- <- <-; (split; [vm_compute; reflexivity|intros H; first [discriminate H|vm_compute; reflexivity]]).
Qed.
Example ex_timely : timely 4294967291 (rx_init (repeat 0 13) 13 4294967291) 0 ex_ops.
Proof.
  unfold ex_ops. repeat (cbn [timely]; split; [first [split; [vm_compute; reflexivity|vm_compute; discriminate]|split; [vm_compute; discriminate|vm_compute; reflexivity]]|
    let H := fresh in intros ? ? ? H; vm_compute in H; injection H as <- <- <-]). exact I.
Qed.
Example ex_run : exists st acks, rrun 4294967291 (rx_init (repeat 0 13) 13 4294967291) ex_ops = Some (st, (ex_stream, acks)) /\
  ack_of st = (u32 (4294967291 + 1 + 17), []) /\
  map (fun a : ack => length (snd a)) acks = [1; 1; 0; 0; 0; 0; 0]%nat.
Proof.
  match goal with |- exists st acks, ?r = _ /\ _ => let v := eval vm_compute in r in match v with Some (?s, (_, ?a)) => exists s, a end end.
  split; [vm_compute; reflexivity|]. split; vm_compute; reflexivity.
Qed.

Print Assumptions tcp_stream_integrity.
Print Assumptions tcp_delivers_only_received.
Print Assumptions tcp_in_order_progress.
Print Assumptions tcp_sack_truthful.
Print Assumptions tcp_sack_first_block.
Print Assumptions tcp_no_reneging.
Print Assumptions tcp_sack_strictly_above_ack_refuted.
Print Assumptions tcp_receive_memory_safe.
