(** Properties C04 and C05: the TCP receive ring. *)
From Verif Require Import Base Seq SeqProps Queue QueueProofs.

Inductive qop := QIns (data : list Z) (seq : Z) | QPop (len : Z).
Inductive qout := QR (r : Z) | QB (bs : list Z) (r : Z).

Definition q_step (q : queue) (o : qop) : option (queue * qout) :=
  match o with
  | QIns d s => do (q', r) <- queue_insert q d s; Some (q', QR r)
  | QPop n => do (q', br) <- queue_pop q n; Some (q', QB (fst br) (snd br))
  end.
Fixpoint q_run (q : queue) (os : list qop) : option (queue * list qout) :=
  match os with
  | [] => Some (q, [])
  | o :: os => do (q1, r) <- q_step q o; do (q2, rs) <- q_run q1 os; Some (q2, r :: rs)
  end.

(** ** Specification: a bounded byte stream.  State: sequence number of the
    first unread byte, and the unread bytes.  [cap] is the capacity. *)
Definition sstate := (Z * list Z)%type.
(** [contig b l s]: sequence number [s] is the one right after the last unread byte. *)
Inductive s_step (cap : Z) : sstate -> qop -> qout -> sstate -> Prop :=
| SSFull b l d s : cap < zlen l + zlen d -> s_step cap (b, l) (QIns d s) (QR (-1)) (b, l)
| SSFirst b d s : zlen d <= cap -> s_step cap (b, []) (QIns d s) (QR 0) (s, d)
| SSAppend b l d s : l <> [] -> zlen l + zlen d <= cap -> u32 s = u32 (b + zlen l) ->
    s_step cap (b, l) (QIns d s) (QR 0) (b, l ++ d)
| SSOther b l d s r : l <> [] -> zlen l + zlen d <= cap -> u32 s <> u32 (b + zlen l) ->
    r = 0 \/ r = -1 -> s_step cap (b, l) (QIns d s) (QR r) (b, l)
| SSEmpty b n : s_step cap (b, []) (QPop n) (QB [] (- EAGAIN)) (b, [])
| SSPop b l n k : l <> [] -> k = Z.min n (zlen l) ->
    s_step cap (b, l) (QPop n) (QB (firstn (Z.to_nat k) l) k) (u32 (b + k), skipn (Z.to_nat k) l).
Inductive s_run (cap : Z) : sstate -> list qop -> list qout -> sstate -> Prop :=
| SSnil st : s_run cap st [] [] st
| SScons st o r st1 os rs st2 : s_step cap st o r st1 -> s_run cap st1 os rs st2 ->
    s_run cap st (o :: os) (r :: rs) st2.

Definition qop_ok (o : qop) : Prop := match o with QIns _ s => is_u32 s | QPop n => 0 <= n < 2^32 end.

Lemma q_step_ok q l o : QWF q l -> is_u32 (q_base q) -> qop_ok o ->
  exists q' r l', q_step q o = Some (q', r) /\ QWF q' l' /\ is_u32 (q_base q') /\ q_size q' = q_size q /\
    s_step (q_size q - 1) (q_base q, l) o r (q_base q', l').
Proof.
  intros HQ HB HO. destruct o as [d s|n]; cbn [q_step].
  - destruct (queue_insert_spec q l d s HQ) as (q' & r & E & H). rewrite E. cbn [obind].
    unfold ins_abs in H.
    destruct (q_size q - 1 - zlen l <? zlen d) eqn:E1.
    { destruct H as (-> & HQ' & HB' & HS'). exists q', (QR (-1)), l. rewrite HB'.
      split; [reflexivity|]. split; [assumption|]. split; [assumption|]. split; [assumption|]. constructor. lia. }
    destruct (zlen l =? 0) eqn:E2.
    { destruct H as (-> & HQ' & HB' & HS'). exists q', (QR 0), d. rewrite HB'.
      assert (l = []) as -> by (apply zlen_zero; lia).
      split; [reflexivity|]. split; [assumption|]. split; [exact HO|]. split; [assumption|]. constructor.
      change (zlen (@nil Z)) with 0 in *. lia. }
    assert (HL : l <> []) by (intros ->; discriminate E2).
    assert (HLE : zlen l < 2147483648).
    { destruct HQ as (Hs & _ & Hh & Ht & Hl & _). rewrite Hl.
      pose proof (Z.mod_pos_bound (q_head q - q_tail q) (q_size q)). lia. }
    pose proof (zlen_nonneg l) as HN.
    cbn [qop_ok] in HO. unfold is_u32 in *. clear HQ E. 
    set (rel := tcp_seq_diff s (q_base q)) in *.
    assert (HR : -2147483648 <= rel < 2147483648 /\ (rel - (s - q_base q)) mod 4294967296 = 0).
    { subst rel. unfold tcp_seq_diff, s32, u32.
      destruct (((s - q_base q) mod 4294967296) mod 4294967296 <? 2147483648) eqn:Q; lia. }
    clearbody rel.
    destruct (rel <? 0) eqn:E3; [|destruct (rel <? zlen l) eqn:E4; [|destruct (zlen l <? rel) eqn:E5]];
      destruct H as (-> & HQ' & HB' & HS').
    + exists q', (QR (-1)), l. rewrite HB'. split; [reflexivity|]. split; [assumption|]. split; [assumption|].
      split; [assumption|]. apply SSOther; [assumption|lia| |auto]. unfold u32. lia.
    + exists q', (QR 0), l. rewrite HB'. split; [reflexivity|]. split; [assumption|]. split; [assumption|].
      split; [assumption|]. apply SSOther; [assumption|lia| |auto]. unfold u32. lia.
    + exists q', (QR (-1)), l. rewrite HB'. split; [reflexivity|]. split; [assumption|]. split; [assumption|].
      split; [assumption|]. apply SSOther; [assumption|lia| |auto]. unfold u32. lia.
    + exists q', (QR 0), (l ++ d). rewrite HB'. split; [reflexivity|]. split; [assumption|]. split; [assumption|].
      split; [assumption|]. apply SSAppend; [assumption|lia|]. unfold u32. lia.
  - destruct (queue_pop_spec q l n HQ HO) as (q' & bs & r & E & H). rewrite E. cbn [obind fst snd].
    destruct (zlen l =? 0) eqn:E2.
    + destruct H as (-> & -> & ->). assert (l = []) as -> by (apply zlen_zero; lia).
      exists q, (QB [] (- EAGAIN)), []. split; [reflexivity|]. split; [assumption|]. split; [assumption|].
      split; [reflexivity|]. constructor.
    + destruct H as (Hr & -> & HQ' & HB' & HS'). assert (HL : l <> []) by (intros ->; discriminate E2).
      eexists q', _, _. split; [reflexivity|]. split; [eassumption|]. rewrite HB'.
      split; [unfold is_u32, u32; lia|]. split; [assumption|]. apply SSPop; assumption.
Qed.

Lemma q_run_ok : forall os q l, QWF q l -> is_u32 (q_base q) -> Forall qop_ok os ->
  exists q' outs l', q_run q os = Some (q', outs) /\ QWF q' l' /\ is_u32 (q_base q') /\ q_size q' = q_size q /\
    s_run (q_size q - 1) (q_base q, l) os outs (q_base q', l').
Proof.
  induction os as [|o os IH]; intros q l HQ HB HO; cbn [q_run].
  - exists q, [], l. split; [reflexivity|]. split; [assumption|]. split; [assumption|]. split; [reflexivity|]. constructor.
  - inversion HO; subst.
    destruct (q_step_ok q l o HQ HB ltac:(assumption)) as (q1 & r & l1 & E & HQ1 & HB1 & HS1 & ST). rewrite E. cbn [obind].
    destruct (IH q1 l1 HQ1 HB1 ltac:(assumption)) as (q2 & rs & l2 & E2 & HQ2 & HB2 & HS2 & SR). rewrite E2. cbn [obind].
    exists q2, (r :: rs), l2. split; [reflexivity|]. split; [assumption|]. split; [assumption|]. split; [congruence|].
    rewrite HS1 in SR. econstructor; eassumption.
Qed.

(** C04/C05: every history is safe and behaves as the bounded byte stream of
    capacity [size - 1]. *)
Theorem rx_ring_is_byte_stream : forall size data isn os,
  1 < size <= 2^31 -> zlen data = size -> is_u32 isn -> Forall qop_ok os ->
  exists q outs st, q_run (queue_init data size isn) os = Some (q, outs) /\
    s_run (size - 1) (isn, []) os outs st /\
    queue_len q = zlen (snd st) /\ queue_space q = size - 1 - zlen (snd st) /\ zlen (snd st) <= size - 1.
Proof.
  intros size data isn os Hs Hd Hi HO.
  destruct (q_run_ok os (queue_init data size isn) [] (QWF_init _ _ _ Hs Hd) Hi HO) as (q & outs & l & E & HQ & _ & HS & SR).
  exists q, outs, (q_base q, l). split; [assumption|]. split; [exact SR|]. cbn [snd].
  pose proof (queue_space_spec _ _ HQ) as [H1 H2]. cbn [q_size queue_init] in HS. rewrite HS in H1.
  split; [apply queue_len_spec; assumption|]. split; [assumption|]. lia.
Qed.

(** C04: conservation.  Over any history, the bytes handed to the application
    followed by the bytes still queued are exactly the concatenation, in order,
    of the data of those inserts that took effect; an insert takes effect only
    on an empty ring or when it continues the last queued byte. *)
Fixpoint delivered (outs : list qout) : list Z :=
  match outs with
  | [] => []
  | QB bs _ :: outs => bs ++ delivered outs
  | QR _ :: outs => delivered outs
  end.
(** Data of the inserts after which the ring held more bytes (observable with
    queue_len), computed by replaying the ring itself. *)
Fixpoint absorbed (q : queue) (os : list qop) : list Z :=
  match os with
  | [] => []
  | o :: os =>
      match q_step q o with
      | None => []
      | Some (q', _) =>
          match o with
          | QIns d _ => (if queue_len q <? queue_len q' then d else []) ++ absorbed q' os
          | QPop _ => absorbed q' os
          end
      end
  end.
Lemma conservation_aux : forall os q l q' outs, QWF q l -> is_u32 (q_base q) -> Forall qop_ok os ->
  q_run q os = Some (q', outs) -> exists l', QWF q' l' /\ l ++ absorbed q os = delivered outs ++ l'.
Proof.
  induction os as [|o os IH]; intros q l q' outs HQ HB HO; cbn [q_run absorbed].
  - intros H; injection H as <- <-. exists l. rewrite app_nil_r. auto.
  - inversion HO; subst.
    destruct (q_step_ok q l o HQ HB ltac:(assumption)) as (q1 & r & l1 & E & HQ1 & HB1 & HS1 & ST). rewrite E. cbn [obind].
    destruct (q_run q1 os) as [[q2 rs]|] eqn:ER; [|discriminate]. cbn [obind]. intros H; injection H as <- <-.
    destruct (IH q1 l1 q2 rs HQ1 HB1 ltac:(assumption) ER) as (l2 & HQ2 & EQ).
    exists l2. split; [assumption|].
    rewrite (queue_len_spec _ _ HQ), (queue_len_spec _ _ HQ1).
    inversion ST; subst; cbn [delivered].
    + rewrite Z.ltb_irrefl. exact EQ.
    + change (zlen (@nil Z)) with 0. rewrite <- EQ. destruct (0 <? zlen l1) eqn:Q; [reflexivity|].
      pose proof (zlen_nonneg l1). rewrite (zlen_zero l1) by lia. reflexivity.
    + rewrite <- EQ. rewrite zlen_app. destruct (zlen l <? zlen l + zlen d) eqn:Q; [apply app_assoc|].
      pose proof (zlen_nonneg d). rewrite (zlen_zero d) by lia. rewrite app_nil_r. reflexivity.
    + rewrite Z.ltb_irrefl. exact EQ.
    + exact EQ.
    + rewrite <- app_assoc, <- EQ, app_assoc, firstn_skipn. reflexivity.
Qed.
Theorem rx_ring_conservation : forall size data isn os q outs,
  1 < size <= 2^31 -> zlen data = size -> is_u32 isn -> Forall qop_ok os ->
  q_run (queue_init data size isn) os = Some (q, outs) ->
  exists rest, zlen rest = queue_len q /\
    absorbed (queue_init data size isn) os = delivered outs ++ rest.
Proof.
  intros size data isn os q outs Hs Hd Hi HO HR.
  destruct (conservation_aux os _ [] q outs (QWF_init _ _ _ Hs Hd) Hi HO HR) as (l & HQ & EQ).
  exists l. split; [symmetry; apply queue_len_spec; assumption|exact EQ].
Qed.

(** C05: an in-order insert that fits is never refused, and one that does not
    fit is refused without any effect. *)
Theorem rx_ring_insert_exact : forall size data isn os q outs d s,
  1 < size <= 2^31 -> zlen data = size -> is_u32 isn -> Forall qop_ok os -> is_u32 s ->
  q_run (queue_init data size isn) os = Some (q, outs) ->
  (queue_space q < zlen d -> queue_insert q d s = Some (q, -1)) /\
  (zlen d <= queue_space q -> (queue_len q = 0 \/ s = u32 (q_base q + queue_len q)) ->
     exists q', queue_insert q d s = Some (q', 0) /\ queue_len q' = queue_len q + zlen d).
Proof.
  intros size data isn os q outs d s Hs Hd Hi HO Hsq HR.
  destruct (q_run_ok os (queue_init data size isn) [] (QWF_init _ _ _ Hs Hd) Hi HO) as (q1 & o1 & l & E & HQ & HB & _ & _).
  rewrite HR in E. injection E as <- <-.
  pose proof (queue_space_spec _ _ HQ) as [HSP HSP0]. pose proof (queue_len_spec _ _ HQ) as HLN.
  split.
  - intros Hlt. unfold queue_insert. destruct (q_size q <=? 1); [reflexivity|].
    destruct (q_size q - 1 <? zlen d); [reflexivity|].
    destruct (queue_space q <? zlen d) eqn:Q; [reflexivity|lia].
  - intros Hle Hc. destruct (queue_insert_spec q l d s HQ) as (q' & r & E & H). unfold ins_abs in H.
    destruct (q_size q - 1 - zlen l <? zlen d) eqn:E1; [lia|].
    destruct (zlen l =? 0) eqn:E2.
    + destruct H as (-> & HQ' & _). exists q'. split; [assumption|]. rewrite (queue_len_spec _ _ HQ'). lia.
    + destruct Hc as [Hc|Hc]; [lia|].
      assert (HLE : zlen l < 2147483648).
      { destruct HQ as (Hsz & _ & Hh & Ht & Hl & _). rewrite Hl.
        pose proof (Z.mod_pos_bound (q_head q - q_tail q) (q_size q)). lia. }
      pose proof (zlen_nonneg l) as HNl.
      assert (HR' : tcp_seq_diff s (q_base q) = zlen l).
      { subst s. unfold is_u32 in HB. rewrite HLN.
        rewrite <- (Z.mod_small (q_base q) 4294967296) at 2 by lia.
        change (q_base q mod 4294967296) with (u32 (q_base q)).
        rewrite seq_diff_order; lia. }
      cbv zeta in H. rewrite HR' in H.
      destruct (zlen l <? 0) eqn:E3; [lia|]. rewrite Z.ltb_irrefl in H.
      destruct H as (-> & HQ' & _). exists q'. split; [assumption|].
      rewrite (queue_len_spec _ _ HQ'), zlen_app. lia.
Qed.

(** Non-vacuity: ring wrap and sequence wrap in one history. *)
Definition demo_q : list qop :=
  [QIns [1;2;3;4;5] 4294967293; QPop 3; QIns [6;7] 2; QIns [8] 0; QIns [9] 100; QPop 10; QPop 1].
Example demo_q_ok : Forall qop_ok demo_q.
Proof. repeat constructor; unfold is_u32; cbn; lia. Qed.
Example demo_q_run : exists q, q_run (queue_init (repeat 0 7) 7 4294967293) demo_q = Some (q,
  [QR 0; QB [1;2;3] 3; QR 0; QR 0; QR (-1); QB [4;5;6;7] 4; QB [] (-11)]) /\ q_head q = 0.
Proof. eexists. split; vm_compute; reflexivity. Qed.

Print Assumptions rx_ring_is_byte_stream.
Print Assumptions rx_ring_conservation.
Print Assumptions rx_ring_insert_exact.
