(** C20: the ARP cache. *)
From Verif Require Import Base ListUtil Route Arp.
Local Ltac Zify.zify_post_hook ::= idtac.

(** ** Histories *)
Inductive aev :=
  | ATick (now : Z)                              (* wolfIP_poll(now) starts *)
  | AReq (ifx tip : Z)                           (* the stack wants to resolve tip *)
  | ARx (ifx : Z) (frame : list Z) (dad : bool)  (* an ARP frame arrives *)
  | ALook (ifx ip : Z)                           (* wolfIP_arp_lookup_ex *)
  | APurge (ifx : Z).                            (* the VLAN interface is deleted *)
Definition astep (ifs : list iface) (st : arpst) (e : aev) : arpst :=
  match e with
  | ATick now => arp_tick st now
  | AReq ifx tip => fst (arp_request ifs st ifx tip)
  | ARx ifx f dad => fst (arp_recv ifs st ifx f dad)
  | ALook ifx ip => fst (arp_lookup st ifx ip)
  | APurge ifx => arp_purge st ifx
  end.
Definition arun (ifs : list iface) (evs : list aev) : arpst := fold_left (astep ifs) evs arp_init.
Definition clock (ifs : list iface) (evs : list aev) : Z := a_tick (arun ifs evs).
Definition aev_wf (e : aev) : Prop :=
  match e with AReq i _ | ARx i _ _ | ALook i _ | APurge i => 0 <= i < 256 | ATick now => 0 <= now end.

(** ** Specification *)
(** A well-formed ARP reply in which host [mac] (a unicast address) claims [ip]. *)
Definition is_reply (f : list Z) (ip : Z) (mac : list Z) : Prop :=
  42 <= zlen f /\ rd16 f 14 = 1 /\ rd16 f 16 = 2048 /\ zget f 18 = 6 /\ zget f 19 = 4 /\ rd16 f 20 = 2 /\
  rd32 f 28 = ip /\ slice f 22 6 = mac /\ Z.land (zget f 22) 1 = 0.

(** A request for [ip] went out on [ifx] at time [t]. *)
Definition requested (ifs : list iface) (evs : list aev) (ifx ip t : Z) : Prop :=
  exists e1 e2, evs = e1 ++ AReq ifx ip :: e2 /\ snd (arp_request ifs (arun ifs e1) ifx ip) <> None /\ clock ifs e1 = t.

(** ... and was answered by [mac] within 5 seconds (or the clock was restarted in between). *)
Definition solicited (ifs : list iface) (evs : list aev) (ifx ip : Z) (mac : list Z) : Prop :=
  exists before f dad after t, evs = before ++ ARx ifx f dad :: after /\ is_reply f ip mac /\
    requested ifs before ifx ip t /\ (clock ifs before < t \/ clock ifs before - t <= 5000).

(** [ip] was looked up, or heard from, on [ifx] at time [t]. *)
Definition touched (ifs : list iface) (evs : list aev) (ifx ip t : Z) : Prop :=
  exists e1 e e2, evs = e1 ++ e :: e2 /\ clock ifs e1 = t /\
    (e = ALook ifx ip \/ exists f d, e = ARx ifx f d /\ rd32 f 28 = ip).

(** The cached mapping. *)
Definition mapping (l : list nb) (ifx ip : Z) : option nb := find (fun n => nb_match n ifx ip) l.

(** ** Proofs *)
Lemma arun_snoc ifs evs e : arun ifs (evs ++ [e]) = astep ifs (arun ifs evs) e.
Proof. unfold arun. rewrite fold_left_app. reflexivity. Qed.

Lemma requested_ext ifs evs e ifx ip t : requested ifs evs ifx ip t -> requested ifs (evs ++ [e]) ifx ip t.
Proof.
  intros (e1 & e2 & -> & H). exists e1, (e2 ++ [e]). split; [|exact H]. rewrite <- app_assoc. reflexivity.
Qed.
Lemma solicited_ext ifs evs e ifx ip mac : solicited ifs evs ifx ip mac -> solicited ifs (evs ++ [e]) ifx ip mac.
Proof.
  intros (b & f & d & a & t & -> & H). exists b, f, d, (a ++ [e]), t. split; [|exact H]. rewrite <- app_assoc. reflexivity.
Qed.
Lemma touched_ext ifs evs e ifx ip t : touched ifs evs ifx ip t -> touched ifs (evs ++ [e]) ifx ip t.
Proof.
  intros (b & x & a & -> & H). exists b, x, (a ++ [e]). split; [|exact H]. rewrite <- app_assoc. reflexivity.
Qed.

Lemma nb_match_iff n ifx ip : nb_match n ifx ip = true <-> n_ip n = ip /\ n_if n = ifx.
Proof. unfold nb_match. rewrite andb_true_iff, !Z.eqb_eq. tauto. Qed.

(** arp_neighbor_index: every entry is kept, refreshed or (if stale) dropped. *)
Lemma index_in l ifx ip now n : In n (fst (arp_neighbor_index l ifx ip now)) ->
  In n l \/ n = nb0 \/ (exists m, In m l /\ nb_match m ifx ip = true /\ n = mkNb (n_ip m) (n_if m) (n_mac m) now).
Proof.
  induction l as [|m l IH]; cbn; [tauto|]. destruct (nb_match m ifx ip) eqn:E.
  - destruct ((n_ts m <=? now) && (120000 <? now - n_ts m)); cbn; intros [<- |H]; auto.
    right; right. exists m. auto.
  - destruct (arp_neighbor_index l ifx ip now) as [r o]. cbn. intros [<- |H]; [auto|].
    destruct (IH H) as [H1|[H1|(m' & H1 & H2)]]; auto. right; right. exists m'. tauto.
Qed.
Lemma index_length l ifx ip now : length (fst (arp_neighbor_index l ifx ip now)) = length l.
Proof.
  induction l as [|m l IH]; cbn; [reflexivity|]. destruct (nb_match m ifx ip).
  - destruct (_ && _); reflexivity.
  - destruct (arp_neighbor_index l ifx ip now) as [r o]. cbn in *. congruence.
Qed.
(** positions: entry [j] keeps its key or becomes empty *)
Lemma index_pos l ifx ip now : forall j n, nth_error (fst (arp_neighbor_index l ifx ip now)) j = Some n ->
  exists m, nth_error l j = Some m /\ ((n_ip n = n_ip m /\ n_if n = n_if m /\ n_mac n = n_mac m /\ (n = m \/ (nb_match m ifx ip = true /\ n_ts n = now))) \/ n = nb0).
Proof.
  induction l as [|m l IH]; intros j n; cbn; [destruct j; discriminate|]. destruct (nb_match m ifx ip) eqn:E.
  - destruct ((n_ts m <=? now) && (120000 <? now - n_ts m)); destruct j; cbn; intros H.
    + exists m. split; [reflexivity|]. right. congruence.
    + exists n. split; [assumption|]. left. auto.
    + exists m. split; [reflexivity|]. left. apply some_inj in H. subst n. cbn. auto 7.
    + exists n. split; [assumption|]. left. auto 7.
  - destruct (arp_neighbor_index l ifx ip now) as [r o]. destruct j; cbn; intros H.
    + exists m. split; [reflexivity|]. left. assert (n = m) by congruence. subst. auto 7.
    + apply IH. exact H.
Qed.

Definition uniq (l : list nb) : Prop := forall i j n m, nth_error l i = Some n -> nth_error l j = Some m ->
  n_ip n <> 0 -> n_ip n = n_ip m -> n_if n = n_if m -> i = j.

Lemma index_uniq l ifx ip now : uniq l -> uniq (fst (arp_neighbor_index l ifx ip now)).
Proof.
  intros U i j n m Hi Hj N0 E1 E2. apply index_pos in Hi, Hj. destruct Hi as (n' & Hi & Ci), Hj as (m' & Hj & Cj).
  destruct Ci as [(A1 & A2 & _)| ->]; [|cbn in N0; congruence].
  destruct Cj as [(B1 & B2 & _)| ->]; [|cbn in E1; congruence].
  apply (U i j n' m' Hi Hj); congruence.
Qed.

Lemma store_slot_spec l ifx ip : forall i slot r, store_slot l ifx ip i slot = r ->
  (exists k n, nth_error l k = Some n /\ nb_match n ifx ip = true /\ r = Some (i + k)%nat) \/
  ((forall n, In n l -> nb_match n ifx ip = false) /\
   ((exists s, slot = Some s /\ r = Some s) \/
    (slot = None /\ exists k n, nth_error l k = Some n /\ n_ip n = 0 /\ r = Some (i + k)%nat) \/
    (slot = None /\ r = None /\ forall n, In n l -> n_ip n <> 0))).
Proof.
  induction l as [|n l IH]; intros i slot r; cbn.
  - intros <-. right. split; [tauto|]. destruct slot as [s|]; [left; exists s; auto|right; right; auto].
  - destruct (nb_match n ifx ip) eqn:E.
    + intros <-. left. exists 0%nat, n. rewrite Nat.add_0_r. auto.
    + intros H. apply IH in H. destruct H as [(k & m & H1 & H2 & H3)|[H1 H2]].
      * left. exists (S k), m. cbn. rewrite Nat.add_succ_r. auto.
      * right. split; [intros x [<- |I]; auto|]. destruct slot as [s|].
        -- destruct H2 as [(s' & H2 & H3)|[(H2 & _)|(H2 & _)]]; [|discriminate|discriminate]. left. exists s'. auto.
        -- destruct (Z.eqb_spec (n_ip n) 0) as [Q|Q].
           ++ destruct H2 as [(s' & H2 & H3)|[(H2 & _)|(H2 & _)]]; [|discriminate|discriminate].
              right. left. split; [reflexivity|]. exists 0%nat, n. rewrite Nat.add_0_r. split; [reflexivity|]. split; [assumption|]. congruence.
           ++ destruct H2 as [(s' & H2 & H3)|[(_ & k & m & K1 & K2 & K3)|(_ & K1 & K2)]]; [discriminate| |].
              ** right. left. split; [reflexivity|]. exists (S k), m. cbn. rewrite Nat.add_succ_r. auto.
              ** right. right. split; [reflexivity|]. split; [assumption|]. intros x [<- |I]; auto.
Qed.

Lemma oldest_spec l : forall i best ts, 
  let r := oldest_slot l i best ts in
  (r = best /\ forall n, In n l -> ts <= n_ts n) \/
  (exists k n, nth_error l k = Some n /\ r = (i + k)%nat /\ n_ts n < ts /\ forall m, In m l -> n_ts n <= n_ts m).
Proof.
  induction l as [|n l IH]; intros i best ts; cbn; [left; split; [reflexivity|tauto]|].
  destruct (Z.ltb_spec (n_ts n) ts) as [L|L].
  - destruct (IH (S i) i (n_ts n)) as [[R1 R2]|(k & m & K1 & K2 & K3 & K4)].
    + right. exists 0%nat, n. rewrite Nat.add_0_r. split; [reflexivity|]. split; [assumption|]. split; [assumption|]. intros m [<- |I]; [lia|auto].
    + right. exists (S k), m. cbn. split; [assumption|]. split; [lia|]. split; [lia|]. intros x [<- |I]; [lia|auto].
  - destruct (IH (S i) best ts) as [[R1 R2]|(k & m & K1 & K2 & K3 & K4)].
    + left. split; [assumption|]. intros m [<- |I]; [lia|auto].
    + right. exists (S k), m. cbn. split; [assumption|]. split; [lia|]. split; [lia|]. intros x [<- |I]; [lia|auto].
Qed.

(** What slot a stored neighbour takes. *)
Lemma store_spec l ifx ip mac now : l <> [] -> exists k old, nth_error l k = Some old /\
  arp_store_neighbor l ifx ip mac now = set_nth k (mkNb ip (u8 ifx) mac now) l /\
  (nb_match old ifx ip = true \/
   ((forall n, In n l -> nb_match n ifx ip = false) /\
    (n_ip old = 0 \/ ((forall n, In n l -> n_ip n <> 0) /\ (forall n, In n l -> n_ts old <= n_ts n))))).
Proof.
  intros NE. unfold arp_store_neighbor. destruct (store_slot_spec l ifx ip 0 None _ eq_refl) as [(k & n & H1 & H2 & H3)|[H1 H2]].
  - rewrite H3. exists k, n. cbn. auto 8.
  - destruct H2 as [(s & H2 & _)|[(_ & k & n & K1 & K2 & K3)|(_ & K1 & K2)]]; [discriminate| |].
    + rewrite K3. exists k, n. cbn. auto 8.
    + rewrite K1. destruct l as [|n l]; [congruence|].
      destruct (oldest_spec l 1 0 (n_ts n)) as [[R1 R2]|(k & m & M1 & M2 & M3 & M4)].
      * rewrite R1. exists 0%nat, n. split; [reflexivity|]. split; [reflexivity|]. right. split; [assumption|]. right.
        split; [assumption|]. intros x [<- |I]; [lia|auto].
      * rewrite M2. exists (S k), m. split; [assumption|]. split; [reflexivity|]. right. split; [assumption|]. right.
        split; [assumption|]. intros x [<- |I]; [lia|auto].
Qed.

Lemma store_uniq l ifx ip mac now : 0 <= ifx < 256 -> l <> [] -> uniq l -> uniq (arp_store_neighbor l ifx ip mac now).
Proof.
  intros HF NE U. destruct (store_spec l ifx ip mac now NE) as (k & old & K1 & -> & K2).
  assert (EU : u8 ifx = ifx) by (unfold u8; apply Z.mod_small; lia).
  assert (KL : (k < length l)%nat) by (apply nth_error_Some; congruence).
  intros i j n m Hi Hj N0 E1 E2. rewrite set_nth_nth_error in Hi, Hj.
  destruct (Nat.ltb_spec k (length l)); [|lia].
  assert (X : forall q x, nth_error l q = Some x -> n_ip x = ip -> n_if x = ifx -> ip <> 0 -> q = k).
  { intros q x Hq A1 A2 A3. destruct K2 as [K2|[K2 _]].
    - apply nb_match_iff in K2. apply (U q k x old Hq K1); [congruence| |]; destruct K2; congruence.
    - apply nth_error_In in Hq. specialize (K2 _ Hq). assert (nb_match x ifx ip = true) by (apply nb_match_iff; auto). congruence. }
  destruct (Nat.eqb_spec k i) as [<- |D1], (Nat.eqb_spec k j) as [<- |D2]; try reflexivity.
  - apply some_inj in Hi. subst n. cbn in *. symmetry. apply (X j m Hj); congruence.
  - apply some_inj in Hj. subst m. cbn in *. apply (X i n Hi); congruence.
  - apply (U i j n m Hi Hj); assumption.
Qed.

Lemma pending_match_in l ifx ip now : forall p, In p (fst (arp_pending_match l ifx ip now)) -> p_ip p <> 0 -> In p l.
Proof.
  induction l as [|q l IH]; intros p; cbn; [tauto|]. destruct (arp_pending_match l ifx ip now) as [r b]. cbn in IH.
  destruct (p_ip q =? 0); [cbn; intros [<- |H] N; auto|].
  destruct ((p_ts q <=? now) && (5000 <? now - p_ts q)); [cbn; intros [<- |H] N; cbn in *; auto; congruence|].
  destruct ((p_ip q =? ip) && (p_if q =? u8 ifx)); cbn; intros [<- |H] N; cbn in *; auto; congruence.
Qed.
Lemma pending_match_true l ifx ip now : snd (arp_pending_match l ifx ip now) = true ->
  exists p, In p l /\ p_ip p = ip /\ p_if p = u8 ifx /\ p_ip p <> 0 /\ (now < p_ts p \/ now - p_ts p <= 5000).
Proof.
  induction l as [|q l IH]; cbn; [discriminate|]. destruct (arp_pending_match l ifx ip now) as [r b]. cbn in IH.
  destruct (Z.eqb_spec (p_ip q) 0) as [Q|Q]; [cbn; intros H; destruct (IH H) as (p & I & R); exists p; auto|].
  destruct ((p_ts q <=? now) && (5000 <? now - p_ts q)) eqn:ST; [cbn; intros H; destruct (IH H) as (p & I & R); exists p; auto|].
  destruct ((p_ip q =? ip) && (p_if q =? u8 ifx)) eqn:M; cbn; intros H.
  - exists q. split; [auto|]. split; [lia|]. split; [lia|]. split; [assumption|]. lia.
  - destruct (IH H) as (p & I & R). exists p. auto.
Qed.
Lemma pending_record_in l ifx ip now p : In p (arp_pending_record l ifx ip now) -> p_ip p <> 0 ->
  In p l \/ (p_ip p = ip /\ p_if p = u8 ifx /\ p_ts p = now).
Proof.
  unfold arp_pending_record.
  assert (S : forall l' i e o t k, pending_scan l' ifx ip i e o t = inl k -> exists q, nth_error l' (k - i) = Some q /\ (i <= k)%nat /\ p_ip q = ip /\ p_if q = u8 ifx).
  { induction l' as [|q l' IH]; intros i e o t k; cbn; [discriminate|].
    destruct ((p_ip q =? ip) && (p_if q =? u8 ifx)) eqn:M.
    - intros H. assert (i = k) by congruence. subst. exists q. rewrite Nat.sub_diag. split; [reflexivity|]. lia.
    - destruct (negb (p_ip q =? 0) && (p_ts q <? t)); intros H; apply IH in H; destruct H as (x & X1 & X2 & X3);
        (exists x; split; [|lia]; replace (k - i)%nat with (S (k - S i)) by lia; exact X1). }
  destruct (pending_scan l ifx ip 0 None 0 18446744073709551615) as [k|k] eqn:E; intros H N; apply set_nth_in in H.
  - destruct H as [-> |H]; [|auto]. right. apply S in E. destruct E as (q & Q1 & Q2 & Q3 & Q4). rewrite Nat.sub_0_r in Q1.
    rewrite (nth_error_nth _ _ pd0 Q1). cbn. auto.
  - destruct H as [-> |H]; [|auto]. right. cbn. auto.
Qed.

Definition AInv (ifs : list iface) (evs : list aev) (st : arpst) : Prop :=
  length (a_nbs st) = 16%nat /\ uniq (a_nbs st) /\
  (forall n, In n (a_nbs st) -> n_ip n <> 0 ->
     solicited ifs evs (n_if n) (n_ip n) (n_mac n) /\ touched ifs evs (n_if n) (n_ip n) (n_ts n)) /\
  (forall p, In p (a_pds st) -> p_ip p <> 0 -> requested ifs evs (p_if p) (p_ip p) (p_ts p)).

Lemma index_inv ifs evs e st ifx ip : AInv ifs evs st -> st = arun ifs evs ->
  (e = ALook ifx ip \/ exists f d, e = ARx ifx f d /\ rd32 f 28 = ip) ->
  AInv ifs (evs ++ [e]) (mkArp (fst (arp_neighbor_index (a_nbs st) ifx ip (a_tick st))) (a_pds st) (a_last st) (a_tick st)).
Proof.
  intros (HL & HU & HN & HP) ES HE. unfold AInv. cbn [a_nbs a_pds].
  split; [rewrite index_length; assumption|]. split; [apply index_uniq; assumption|]. split.
  - intros n I N0. apply index_in in I. destruct I as [I|[-> |(m & I & M & ->)]].
    + destruct (HN n I N0). split; [apply solicited_ext|apply touched_ext]; assumption.
    + cbn in N0. congruence.
    + cbn [n_ip n_if n_mac n_ts] in *. destruct (HN m I N0). split; [apply solicited_ext; assumption|].
      exists evs, e, []. split; [reflexivity|]. split; [unfold clock; rewrite <- ES; reflexivity|].
      apply nb_match_iff in M. destruct M as [-> ->]. exact HE.
  - intros p I N0. apply requested_ext. auto.
Qed.

Lemma AInv_ext ifs evs e st : AInv ifs evs st -> AInv ifs (evs ++ [e]) st.
Proof.
  intros (HL & HU & HN & HP). split; [assumption|]. split; [assumption|]. split.
  - intros n I N0. destruct (HN n I N0). split; [apply solicited_ext|apply touched_ext]; assumption.
  - intros p I N0. apply requested_ext. auto.
Qed.
Lemma AInv_st ifs evs st l t : AInv ifs evs st -> AInv ifs evs (mkArp (a_nbs st) (a_pds st) l t).
Proof. intros H. exact H. Qed.

Ltac rexit := cbn [fst snd]; solve [apply AInv_ext; assumption].

Lemma step_inv ifs evs e : AInv ifs evs (arun ifs evs) -> aev_wf e -> AInv ifs (evs ++ [e]) (arun ifs (evs ++ [e])).
Proof.
  intros HI HW. rewrite arun_snoc. set (st := arun ifs evs) in *. assert (ES : st = arun ifs evs) by reflexivity. clearbody st.
  destruct e as [now|ifx tip|ifx f dad|ifx ip|ifx]; cbn [astep].
  - apply AInv_ext. apply AInv_st. assumption.
  - cbn in HW. assert (EU : u8 ifx = ifx) by (unfold u8; apply Z.mod_small; lia).
    assert (SENT : snd (arp_request ifs st ifx tip) <> None \/ fst (arp_request ifs st ifx tip) = st).
    { unfold arp_request. destruct (nth_error ifs (Z.to_nat ifx)); [|auto]. destruct (i_noneth i); [auto|].
      destruct (negb (a_last st ifx =? 0) && (a_tick st <? a_last st ifx + 1000)); [auto|]. left. discriminate. }
    destruct SENT as [SENT|E]; [|rewrite E; apply AInv_ext; assumption].
    pose proof SENT as SENT2. unfold arp_request in SENT |- *. destruct (nth_error ifs (Z.to_nat ifx)) as [i|]; [|rexit].
    destruct (i_noneth i); [rexit|].
    destruct (negb (a_last st ifx =? 0) && (a_tick st <? a_last st ifx + 1000)); [rexit|]. cbn [fst].
    destruct (AInv_ext ifs evs (AReq ifx tip) st HI) as (HL & HU & HN & HP).
    split; [assumption|]. split; [assumption|]. split; [assumption|]. cbn [a_pds].
    intros p I N0. apply pending_record_in in I; [|assumption]. destruct I as [I|(-> & -> & ->)]; [auto|].
    rewrite EU. exists evs, []. split; [reflexivity|]. rewrite <- ES. split; [assumption|]. unfold clock. rewrite <- ES. reflexivity.
  - cbn in HW. assert (EU : u8 ifx = ifx) by (unfold u8; apply Z.mod_small; lia).
    unfold arp_recv. destruct (Z.ltb_spec (zlen f) 42) as [LL|LL]; [rexit|].
    destruct (nth_error ifs (Z.to_nat ifx)) as [i|]; [|rexit]. destruct (i_noneth i); [rexit|].
    destruct (negb (rd16 f 14 =? 1) || negb (rd16 f 16 =? 2048) || negb (zget f 18 =? 6) || negb (zget f 19 =? 4)) eqn:HDR; [rexit|].
    destruct (Z.eqb_spec (Z.land (zget f 22) 1) 0) as [MC|MC]; cbn [negb]; [|rexit].
    destruct ((rd16 f 20 =? 1) && (rd32 f 38 =? c_ip (i_conf i))).
    + cbn [fst]. destruct (negb (rd32 f 28 =? 0) && negb (rd32 f 28 =? c_ip (i_conf i)) &&
          negb (ip_is_broadcast (map i_conf ifs) (rd32 f 28)) && negb (ip_is_multicast (rd32 f 28))).
      * apply index_inv; [assumption|assumption|]. right. exists f, dad. auto.
      * apply AInv_ext. apply AInv_st. assumption.
    + destruct (Z.eqb_spec (rd16 f 20) 2) as [OP|OP]; [|rexit].
      destruct (dad && (rd32 f 28 =? c_ip (i_conf i))); [rexit|].
      destruct ((rd32 f 28 =? 0) || (rd32 f 28 =? c_ip (i_conf i)) || ip_is_broadcast (map i_conf ifs) (rd32 f 28) || ip_is_multicast (rd32 f 28)) eqn:BAD; [rexit|].
      destruct (arp_pending_match (a_pds st) ifx (rd32 f 28) (a_tick st)) as [pds pending] eqn:PM.
      assert (PI : forall p, In p pds -> p_ip p <> 0 -> In p (a_pds st)).
      { intros p I N0. apply (pending_match_in (a_pds st) ifx (rd32 f 28) (a_tick st)); [rewrite PM; exact I|exact N0]. }
      cbn [fst]. destruct (AInv_ext ifs evs (ARx ifx f dad) st HI) as (HL & HU & HN & HP).
      destruct pending.
      * assert (NE : a_nbs st <> []) by (intros Q; rewrite Q in HL; discriminate).
        destruct (store_spec (a_nbs st) ifx (rd32 f 28) (slice f 22 6) (a_tick st) NE) as (k & old & K1 & K2 & K3).
        pose proof (store_uniq (a_nbs st) ifx (rd32 f 28) (slice f 22 6) (a_tick st) HW NE HU) as SU. rewrite K2 in *.
        unfold AInv. cbn [a_nbs a_pds]. split; [rewrite set_nth_length; assumption|]. split; [assumption|]. split; [|auto].
        intros n I N0. apply set_nth_in in I. destruct I as [-> |I]; [|auto]. cbn [n_ip n_if n_mac n_ts] in *. rewrite EU. split.
        -- destruct (pending_match_true (a_pds st) ifx (rd32 f 28) (a_tick st) ltac:(rewrite PM; reflexivity)) as (p & P1 & P2 & P3 & P4 & P5).
           destruct HI as (_ & _ & _ & HP0). pose proof (HP0 p P1 P4) as RQ. rewrite P2, P3, EU in RQ.
           exists evs, f, dad, [], (p_ts p). split; [reflexivity|]. split; [|split; [assumption|]].
           ++ unfold is_reply. repeat split; try assumption; try lia.
           ++ unfold clock. rewrite <- ES. exact P5.
        -- exists evs, (ARx ifx f dad), []. split; [reflexivity|]. split; [unfold clock; rewrite <- ES; reflexivity|]. right. exists f, dad. auto.
      * unfold AInv. cbn [a_nbs a_pds]. split; [assumption|]. split; [assumption|]. split; [assumption|]. intros p I N0. apply HP; auto.
  - unfold arp_lookup. pose proof (index_inv ifs evs (ALook ifx ip) st ifx ip HI ES ltac:(auto)) as H.
    destruct (arp_neighbor_index (a_nbs st) ifx ip (a_tick st)) as [l o]. exact H.
  - destruct (AInv_ext ifs evs (APurge ifx) st HI) as (HL & HU & HN & HP). unfold arp_purge, AInv. cbn [a_nbs a_pds].
    split; [rewrite map_length; assumption|]. split; [|split].
    + intros a b n m Ha Hb N0 E1 E2. rewrite nth_error_map in Ha, Hb.
      destruct (nth_error (a_nbs st) a) as [x|] eqn:Xa; [|discriminate]. destruct (nth_error (a_nbs st) b) as [y|] eqn:Xb; [|discriminate].
      cbn in Ha, Hb. apply some_inj in Ha, Hb. destruct (n_if x =? u8 ifx); [subst; cbn in N0; congruence|].
      destruct (n_if y =? u8 ifx); [subst; cbn in *; congruence|]. subst. apply (HU a b n m Xa Xb); assumption.
    + intros n I N0. apply in_map_iff in I. destruct I as (x & <- & I). destruct (n_if x =? u8 ifx); [cbn in N0; congruence|]. auto.
    + intros p I N0. apply in_map_iff in I. destruct I as (x & <- & I). destruct (p_if x =? u8 ifx); [cbn in N0; congruence|]. auto.
Qed.

Lemma run_inv ifs evs : Forall aev_wf evs -> AInv ifs evs (arun ifs evs).
Proof.
  induction evs as [|e evs IH] using rev_ind; intros HW.
  - unfold AInv. cbn [arun fold_left arp_init a_nbs a_pds].
    assert (R : forall n, In n (repeat nb0 16) -> n_ip n = 0) by (intros n I; apply repeat_spec in I; subst; reflexivity).
    split; [reflexivity|]. split; [|split].
    + intros i j n m Hi Hj N0. apply nth_error_In in Hi. apply R in Hi. congruence.
    + intros n I N0. apply R in I. congruence.
    + intros p I N0. apply repeat_spec in I. subst. cbn in N0. congruence.
  - apply Forall_app in HW. destruct HW as [HW1 HW2]. inversion HW2; subst. apply step_inv; [apply IH; assumption|assumption].
Qed.

Lemma index_found l ifx ip now mac : snd (arp_neighbor_index l ifx ip now) = Some mac ->
  exists n, In n l /\ nb_match n ifx ip = true /\ n_mac n = mac /\ (now < n_ts n \/ now - n_ts n <= 120000).
Proof.
  induction l as [|n l IH]; cbn; [discriminate|]. destruct (nb_match n ifx ip) eqn:E.
  - destruct ((n_ts n <=? now) && (120000 <? now - n_ts n)) eqn:A; cbn; [discriminate|]. intros H. exists n.
    split; [auto|]. split; [assumption|]. split; [congruence|]. lia.
  - destruct (arp_neighbor_index l ifx ip now) as [r o]. cbn in *. intros H. destruct (IH H) as (m & I & R). exists m. auto.
Qed.

(** C20.  After any history, a MAC address returned by a lookup was learnt from an
    ARP reply that answered, within 5 s, a request for that address which this
    stack had sent on that interface. *)
Theorem arp_lookup_only_solicited : forall ifs evs ifx ip mac, Forall aev_wf evs -> ip <> 0 ->
  snd (arp_lookup (arun ifs evs) ifx ip) = Some mac -> solicited ifs evs ifx ip mac.
Proof.
  intros ifs evs ifx ip mac HW N0 H. pose proof (run_inv ifs evs HW) as (HL & HU & HN & HP).
  unfold arp_lookup in H. pose proof (index_found (a_nbs (arun ifs evs)) ifx ip (a_tick (arun ifs evs)) mac) as F.
  destruct (arp_neighbor_index (a_nbs (arun ifs evs)) ifx ip (a_tick (arun ifs evs))) as [l o]. cbn in H, F.
  destruct (F H) as (n & I & M & <- & _). apply nb_match_iff in M. destruct M as [M1 M2].
  destruct (HN n I ltac:(congruence)) as [S _]. rewrite M1, M2 in S. exact S.
Qed.

(** C20.  A lookup never returns an entry that was neither used nor heard from for
    more than the 120 s ageing time (unless the clock went backwards). *)
Theorem arp_lookup_is_fresh : forall ifs evs ifx ip mac, Forall aev_wf evs -> ip <> 0 ->
  snd (arp_lookup (arun ifs evs) ifx ip) = Some mac ->
  exists t, touched ifs evs ifx ip t /\ (clock ifs evs < t \/ clock ifs evs - t <= 120000).
Proof.
  intros ifs evs ifx ip mac HW N0 H. pose proof (run_inv ifs evs HW) as (HL & HU & HN & HP).
  unfold arp_lookup in H. pose proof (index_found (a_nbs (arun ifs evs)) ifx ip (a_tick (arun ifs evs)) mac) as F.
  destruct (arp_neighbor_index (a_nbs (arun ifs evs)) ifx ip (a_tick (arun ifs evs))) as [l o]. cbn in H, F.
  destruct (F H) as (n & I & M & _ & A). apply nb_match_iff in M. destruct M as [M1 M2].
  destruct (HN n I ltac:(congruence)) as [_ T]. rewrite M1, M2 in T. exists (n_ts n). split; assumption.
Qed.

(** C20.  At most one entry per (address, interface), after any history. *)
Theorem arp_entries_unique : forall ifs evs, Forall aev_wf evs -> uniq (a_nbs (arun ifs evs)).
Proof. intros ifs evs HW. apply (run_inv ifs evs HW). Qed.

(** What one event can do to the table: an entry is a copy of the entry that was
    there (possibly with a new time stamp), or was just learnt. *)
Lemma recv_cases ifs st ifx f dad st' o : arp_recv ifs st ifx f dad = (st', o) ->
  a_nbs st' = a_nbs st \/
  (a_nbs st' = fst (arp_neighbor_index (a_nbs st) ifx (rd32 f 28) (a_tick st))) \/
  (a_nbs st' = arp_store_neighbor (a_nbs st) ifx (rd32 f 28) (slice f 22 6) (a_tick st) /\
   is_reply f (rd32 f 28) (slice f 22 6) /\ rd32 f 28 <> 0 /\
   exists p, In p (a_pds st) /\ p_ip p = rd32 f 28 /\ p_if p = u8 ifx /\ (a_tick st < p_ts p \/ a_tick st - p_ts p <= 5000)).
Proof.
  unfold arp_recv. destruct (Z.ltb_spec (zlen f) 42) as [LL|LL]; [intros H; left; congruence|].
  destruct (nth_error ifs (Z.to_nat ifx)) as [i|]; [|intros H; left; congruence]. destruct (i_noneth i); [intros H; left; congruence|].
  destruct (negb (rd16 f 14 =? 1) || negb (rd16 f 16 =? 2048) || negb (zget f 18 =? 6) || negb (zget f 19 =? 4)) eqn:HDR; [intros H; left; congruence|].
  destruct (Z.eqb_spec (Z.land (zget f 22) 1) 0) as [MC|MC]; cbn [negb]; [|intros H; left; congruence].
  destruct ((rd16 f 20 =? 1) && (rd32 f 38 =? c_ip (i_conf i))).
  - destruct (negb (rd32 f 28 =? 0) && negb (rd32 f 28 =? c_ip (i_conf i)) &&
          negb (ip_is_broadcast (map i_conf ifs) (rd32 f 28)) && negb (ip_is_multicast (rd32 f 28))); intros H; apply (f_equal fst) in H; cbn in H; subst st'; cbn; auto.
  - destruct (Z.eqb_spec (rd16 f 20) 2) as [OP|OP]; [|intros H; left; congruence].
    destruct (dad && (rd32 f 28 =? c_ip (i_conf i))); [intros H; left; congruence|].
    destruct ((rd32 f 28 =? 0) || (rd32 f 28 =? c_ip (i_conf i)) || ip_is_broadcast (map i_conf ifs) (rd32 f 28) || ip_is_multicast (rd32 f 28)) eqn:BAD; [intros H; left; congruence|].
    destruct (arp_pending_match (a_pds st) ifx (rd32 f 28) (a_tick st)) as [pds pending] eqn:PM.
    intros H; apply (f_equal fst) in H; cbn in H; subst st'; cbn. destruct pending; [|auto]. right; right. split; [reflexivity|].
    destruct (pending_match_true (a_pds st) ifx (rd32 f 28) (a_tick st) ltac:(rewrite PM; reflexivity)) as (p & P1 & P2 & P3 & P4 & P5).
    split; [|split; [lia|exists p; auto]]. unfold is_reply. repeat split; try assumption; try lia.
Qed.

(** The event [e], coming after [evs], is a reply that teaches (ifx, ip) -> mac. *)
Definition teaches (ifs : list iface) (evs : list aev) (e : aev) (ifx ip : Z) (mac : list Z) : Prop :=
  exists f dad t, e = ARx ifx f dad /\ is_reply f ip mac /\ ip <> 0 /\
    requested ifs evs ifx ip t /\ (clock ifs evs < t \/ clock ifs evs - t <= 5000).

Lemma step_entry ifs evs e : Forall aev_wf (evs ++ [e]) -> forall j n', nth_error (a_nbs (arun ifs (evs ++ [e]))) j = Some n' ->
  n_ip n' <> 0 ->
  (exists n, nth_error (a_nbs (arun ifs evs)) j = Some n /\ n_ip n = n_ip n' /\ n_if n = n_if n' /\ n_mac n = n_mac n') \/
  teaches ifs evs e (n_if n') (n_ip n') (n_mac n').
Proof.
  intros HW j n' Hj N0. apply Forall_app in HW. destruct HW as [HW1 HW2]. apply Forall_inv in HW2.
  pose proof (run_inv ifs evs HW1) as (HL & HU & HN & HP). rewrite arun_snoc in Hj.
  assert (CK : clock ifs evs = a_tick (arun ifs evs)) by reflexivity.
  set (st := arun ifs evs) in *. clearbody st.
  assert (SAME : forall l, l = a_nbs st -> nth_error l j = Some n' ->
     (exists n, nth_error (a_nbs st) j = Some n /\ n_ip n = n_ip n' /\ n_if n = n_if n' /\ n_mac n = n_mac n') \/
     teaches ifs evs e (n_if n') (n_ip n') (n_mac n')) by (intros l -> H; left; exists n'; auto).
  assert (IDX : forall ifx ip now, nth_error (fst (arp_neighbor_index (a_nbs st) ifx ip now)) j = Some n' ->
     (exists n, nth_error (a_nbs st) j = Some n /\ n_ip n = n_ip n' /\ n_if n = n_if n' /\ n_mac n = n_mac n')).
  { intros ifx ip now H. apply index_pos in H. destruct H as (m & M1 & [(A1 & A2 & A3 & _)| ->]); [|cbn in N0; congruence].
    exists m. auto. }
  destruct e as [now|ifx tip|ifx f dad|ifx ip|ifx]; cbn [astep] in Hj.
  - apply (SAME _ eq_refl Hj).
  - apply (fun E => SAME _ E Hj). unfold arp_request. destruct (nth_error ifs (Z.to_nat ifx)); [|reflexivity].
    destruct (i_noneth i); [reflexivity|]. destruct (negb (a_last st ifx =? 0) && (a_tick st <? a_last st ifx + 1000)); reflexivity.
  - destruct (arp_recv ifs st ifx f dad) as [st' o] eqn:E. cbn [fst] in Hj.
    destruct (recv_cases _ _ _ _ _ _ _ E) as [C|[C|(C & C1 & C2 & p & P1 & P2 & P3 & P4)]].
    + apply (SAME _ C Hj).
    + rewrite C in Hj. left. eapply IDX. exact Hj.
    + cbn in HW2. assert (EU : u8 ifx = ifx) by (unfold u8; apply Z.mod_small; lia).
      assert (NE : a_nbs st <> []) by (intros Q; rewrite Q in HL; discriminate).
      destruct (store_spec (a_nbs st) ifx (rd32 f 28) (slice f 22 6) (a_tick st) NE) as (k & old & K1 & K2 & K3).
      rewrite C, K2, set_nth_nth_error in Hj. destruct (Nat.eqb k j); [|apply (SAME _ eq_refl Hj)].
      destruct (Nat.ltb k (length (a_nbs st))); [|discriminate]. apply some_inj in Hj. subst n'. cbn [n_ip n_if n_mac] in *. rewrite EU in *.
      right. exists f, dad, (p_ts p). split; [reflexivity|]. split; [assumption|]. split; [assumption|].
      split; [|rewrite CK; assumption]. rewrite <- P2, <- P3. apply HP; congruence.
  - unfold arp_lookup in Hj. specialize (IDX ifx ip (a_tick st)).
    destruct (arp_neighbor_index (a_nbs st) ifx ip (a_tick st)) as [l o]. cbn in *. left. apply IDX. exact Hj.
  - unfold arp_purge in Hj. cbn [a_nbs] in Hj. rewrite nth_error_map in Hj. destruct (nth_error (a_nbs st) j) as [x|] eqn:X; [|discriminate].
    cbn in Hj. apply some_inj in Hj. destruct (n_if x =? u8 ifx); subst n'; [cbn in N0; congruence|]. left. exists x. auto.
Qed.

(** C20.  The only event that can make a lookup answer with another MAC address (or
    answer at all where it did not) is a reply to a pending request. *)
Theorem arp_mapping_change_needs_solicited_reply : forall ifs evs e ifx ip mac, Forall aev_wf (evs ++ [e]) -> ip <> 0 ->
  snd (arp_lookup (arun ifs (evs ++ [e])) ifx ip) = Some mac ->
  (exists n, mapping (a_nbs (arun ifs evs)) ifx ip = Some n /\ n_mac n = mac) \/ teaches ifs evs e ifx ip mac.
Proof.
  intros ifs evs e ifx ip mac HW N0 H. unfold arp_lookup in H.
  pose proof (index_found (a_nbs (arun ifs (evs ++ [e]))) ifx ip (a_tick (arun ifs (evs ++ [e]))) mac) as F.
  destruct (arp_neighbor_index (a_nbs (arun ifs (evs ++ [e]))) ifx ip (a_tick (arun ifs (evs ++ [e])))) as [l o]. cbn in H, F.
  destruct (F H) as (n & I & M & <- & _). apply nb_match_iff in M. destruct M as [M1 M2].
  apply In_nth_error in I. destruct I as [j Hj]. rewrite <- M1, <- M2.
  destruct (step_entry ifs evs e HW j n Hj ltac:(congruence)) as [(m & Hm & A1 & A2 & A3)|T]; [|auto]. left.
  apply Forall_app in HW. destruct HW as [HW1 _]. pose proof (run_inv ifs evs HW1) as (_ & HU & _).
  unfold mapping. destruct (find (fun x => nb_match x (n_if n) (n_ip n)) (a_nbs (arun ifs evs))) as [x|] eqn:FD.
  - exists x. split; [reflexivity|]. apply find_some in FD. destruct FD as [I X]. apply nb_match_iff in X. destruct X as [X1 X2].
    apply In_nth_error in I. destruct I as [k Hk]. assert (k = j) by (apply (HU k j x m Hk Hm); congruence). subst. congruence.
  - exfalso. apply nth_error_In in Hm. apply (find_none _ _ FD) in Hm. cbn in Hm.
    assert (nb_match m (n_if n) (n_ip n) = true) by (apply nb_match_iff; auto). congruence.
Qed.

(** C20.  An entry disappears only because its interface was deleted, because it
    was found to be older than 120 s, or - to make room for a newly learnt
    neighbour - when all 16 slots are in use and no other entry was used less
    recently. *)
Theorem arp_eviction_is_lru : forall ifs evs e n, Forall aev_wf (evs ++ [e]) ->
  In n (a_nbs (arun ifs evs)) -> n_ip n <> 0 ->
  mapping (a_nbs (arun ifs (evs ++ [e]))) (n_if n) (n_ip n) = None ->
  e = APurge (n_if n) \/
  ((e = ALook (n_if n) (n_ip n) \/ exists f d, e = ARx (n_if n) f d /\ rd32 f 28 = n_ip n) /\ clock ifs evs - n_ts n > 120000) \/
  ((exists ifx ip mac, teaches ifs evs e ifx ip mac /\ mapping (a_nbs (arun ifs evs)) ifx ip = None) /\
   length (a_nbs (arun ifs evs)) = 16%nat /\
   forall m, In m (a_nbs (arun ifs evs)) -> n_ip m <> 0 /\ n_ts n <= n_ts m).
Proof.
  intros ifs evs e n HW IN N0 LOST. apply Forall_app in HW. destruct HW as [HW1 HW2]. apply Forall_inv in HW2.
  pose proof (run_inv ifs evs HW1) as (HL & HU & HN & HP). rewrite arun_snoc in LOST.
  assert (CK : clock ifs evs = a_tick (arun ifs evs)) by reflexivity.
  set (st := arun ifs evs) in *. clearbody st.
  assert (KEPT : forall l j x, nth_error l j = Some x -> n_ip x = n_ip n -> n_if x = n_if n -> mapping l (n_if n) (n_ip n) <> None).
  { intros l j x Hj A1 A2 Q. apply nth_error_In in Hj. apply (find_none _ _ Q) in Hj. cbn in Hj.
    assert (nb_match x (n_if n) (n_ip n) = true) by (apply nb_match_iff; auto). congruence. }
  apply In_nth_error in IN. destruct IN as [j Hj].
  assert (SAME : forall l, l = a_nbs st -> mapping l (n_if n) (n_ip n) = None -> False).
  { intros l -> Q. exact (KEPT _ _ _ Hj eq_refl eq_refl Q). }
  assert (IDX : forall ifx ip, mapping (fst (arp_neighbor_index (a_nbs st) ifx ip (a_tick st))) (n_if n) (n_ip n) = None ->
     ifx = n_if n /\ ip = n_ip n /\ a_tick st - n_ts n > 120000).
  { intros ifx ip Q.
    assert (G : forall l j, nth_error l j = Some n -> (ifx = n_if n /\ ip = n_ip n /\ a_tick st - n_ts n > 120000) \/
              exists k x, nth_error (fst (arp_neighbor_index l ifx ip (a_tick st))) k = Some x /\ n_ip x = n_ip n /\ n_if x = n_if n).
    { induction l as [|m l IH]; intros [|k] Hk; cbn in Hk; try discriminate; cbn.
      - apply some_inj in Hk. subst m. destruct (nb_match n ifx ip) eqn:M.
        + apply nb_match_iff in M. destruct M. destruct ((n_ts n <=? a_tick st) && (120000 <? a_tick st - n_ts n)) eqn:A.
          * left. split; [auto|]. split; [auto|lia].
          * right. exists 0%nat. eexists. cbn. split; [reflexivity|]. cbn. auto.
        + right. destruct (arp_neighbor_index l ifx ip (a_tick st)). exists 0%nat, n. cbn. auto.
      - destruct (nb_match m ifx ip) eqn:M.
        + right. exists (S k), n. destruct ((n_ts m <=? a_tick st) && (120000 <? a_tick st - n_ts m)); cbn; auto.
        + destruct (IH k Hk) as [X|(k' & x & X1 & X2)]; [auto|]. right.
          destruct (arp_neighbor_index l ifx ip (a_tick st)) as [r o]. exists (S k'), x. cbn in *. auto. }
    destruct (G _ _ Hj) as [X|(k & x & X1 & X2 & X3)]; [exact X|]. exfalso. exact (KEPT _ _ _ X1 X2 X3 Q). }
  destruct e as [now|ifx tip|ifx f dad|ifx ip|ifx]; cbn [astep] in LOST.
  - exfalso. exact (SAME _ eq_refl LOST).
  - exfalso. apply (fun E => SAME _ E LOST). unfold arp_request. destruct (nth_error ifs (Z.to_nat ifx)); [|reflexivity].
    destruct (i_noneth i); [reflexivity|]. destruct (negb (a_last st ifx =? 0) && (a_tick st <? a_last st ifx + 1000)); reflexivity.
  - destruct (arp_recv ifs st ifx f dad) as [st' o] eqn:E. cbn [fst] in LOST.
    destruct (recv_cases _ _ _ _ _ _ _ E) as [C|[C|(C & C1 & C2 & p & P1 & P2 & P3 & P4)]].
    + exfalso. exact (SAME _ C LOST).
    + rewrite C in LOST. right. left. destruct (IDX _ _ LOST) as (-> & Q2 & Q3). split; [|lia]. right. exists f, dad. auto.
    + cbn in HW2. assert (EU : u8 ifx = ifx) by (unfold u8; apply Z.mod_small; lia).
      assert (NE : a_nbs st <> []) by (intros Q; rewrite Q in HL; discriminate).
      destruct (store_spec (a_nbs st) ifx (rd32 f 28) (slice f 22 6) (a_tick st) NE) as (k & old & K1 & K2 & K3).
      assert (KL : (k < length (a_nbs st))%nat) by (apply nth_error_Some; congruence).
      assert (KJ : k = j).
      { destruct (Nat.eq_dec k j) as [e|D]; [exact e|]. exfalso. apply (KEPT (a_nbs st') j n); [|reflexivity|reflexivity|exact LOST].
        rewrite C, K2, set_nth_other by assumption. exact Hj. }
      subst k. assert (old = n) by congruence. subst old.
      right. right.
      destruct K3 as [K3|[K3 [K4|[K4 K5]]]].
      * exfalso. apply nb_match_iff in K3. destruct K3 as [K3 K4]. apply (KEPT (a_nbs st') j (mkNb (rd32 f 28) (u8 ifx) (slice f 22 6) (a_tick st))); [|auto|cbn; congruence|exact LOST].
        rewrite C, K2, set_nth_same by assumption. reflexivity.
      * congruence.
      * split; [|split; [assumption|]].
        -- exists ifx, (rd32 f 28), (slice f 22 6). split.
           ++ exists f, dad, (p_ts p). split; [reflexivity|]. split; [assumption|]. split; [assumption|].
              split; [|rewrite CK; assumption]. rewrite <- P2, <- EU, <- P3. apply HP; congruence.
           ++ unfold mapping. destruct (find (fun x => nb_match x ifx (rd32 f 28)) (a_nbs st)) eqn:FD; [|reflexivity].
              apply find_some in FD. destruct FD as [FD1 FD2]. specialize (K3 _ FD1). congruence.
        -- intros m I. split; [auto|auto].
  - unfold arp_lookup in LOST. specialize (IDX ifx ip).
    destruct (arp_neighbor_index (a_nbs st) ifx ip (a_tick st)) as [l o]. cbn in *. destruct (IDX LOST) as (-> & -> & Q3).
    right. left. split; [auto|]. lia.
  - left. cbn in HW2. assert (EU : u8 ifx = ifx) by (unfold u8; apply Z.mod_small; lia).
    destruct (Z.eq_dec (n_if n) ifx) as [-> |D]; [reflexivity|]. exfalso. unfold arp_purge in LOST. cbn [a_nbs] in LOST.
    apply (KEPT _ j n) in LOST; [assumption| |reflexivity|reflexivity]. rewrite nth_error_map, Hj. cbn. rewrite EU.
    destruct (Z.eqb_spec (n_if n) ifx); [congruence|]. reflexivity.
Qed.

(** C20.  A request for the interface's own address, and nothing else, is answered:
    the answer goes to the asker and gives this interface's MAC and address. *)
Definition is_request_for (f : list Z) (ip : Z) : Prop :=
  42 <= zlen f /\ rd16 f 14 = 1 /\ rd16 f 16 = 2048 /\ zget f 18 = 6 /\ zget f 19 = 4 /\ rd16 f 20 = 1 /\
  rd32 f 38 = ip /\ Z.land (zget f 22) 1 = 0.

Lemma cons_eq (x y : Z) l l' : x = y -> l = l' -> x :: l = y :: l'.
Proof. congruence. Qed.
Lemma slice_hdr f : Forall (fun b => 0 <= b < 256) f -> 42 <= zlen f ->
  rd16 f 14 = 1 -> rd16 f 16 = 2048 -> zget f 18 = 6 -> zget f 19 = 4 -> slice f 14 6 = [0; 1; 8; 0; 6; 4].
Proof.
  intros HB HL. unfold slice, rd16, zlen, zget in *.
  change (Z.to_nat 14) with 14%nat. change (Z.to_nat (14 + 1)) with 15%nat. change (Z.to_nat 16) with 16%nat.
  change (Z.to_nat (16 + 1)) with 17%nat. change (Z.to_nat 18) with 18%nat. change (Z.to_nat 19) with 19%nat. do 20 (destruct f as [|? f]; [cbn in HL; lia|]). cbn [nth skipn firstn].
  repeat match goal with H : Forall _ (_ :: _) |- _ => inversion H; clear H; subst end.
  intros. repeat (apply cons_eq; [lia|]). reflexivity.
Qed.

Theorem arp_answers_exactly_own_requests : forall ifs st ifx f dad i, Forall (fun b => 0 <= b < 256) f ->
  nth_error ifs (Z.to_nat ifx) = Some i -> i_noneth i = false -> length (i_mac i) = 6%nat ->
  (is_request_for f (c_ip (i_conf i)) <-> exists fr, snd (arp_recv ifs st ifx f dad) = ArpSend fr) /\
  forall fr, snd (arp_recv ifs st ifx f dad) = ArpSend fr ->
    length fr = length f /\
    firstn 42 fr = arp_frame (slice f 22 6) (i_mac i) 2 (i_mac i) (c_ip (i_conf i)) (slice f 22 6) (rd32 f 28).
Proof.
  intros ifs st ifx f dad i HB HI HE HM.
  assert (K : (is_request_for f (c_ip (i_conf i)) /\ exists fr, snd (arp_recv ifs st ifx f dad) = ArpSend fr /\
               length fr = length f /\
               firstn 42 fr = arp_frame (slice f 22 6) (i_mac i) 2 (i_mac i) (c_ip (i_conf i)) (slice f 22 6) (rd32 f 28)) \/
              (~ is_request_for f (c_ip (i_conf i)) /\ forall fr, snd (arp_recv ifs st ifx f dad) <> ArpSend fr)).
  { unfold arp_recv. destruct (Z.ltb_spec (zlen f) 42) as [LL|LL].
    { right. split; [intros (Q & _); lia|]. intros fr. discriminate. }
    rewrite HI, HE.
    destruct (negb (rd16 f 14 =? 1) || negb (rd16 f 16 =? 2048) || negb (zget f 18 =? 6) || negb (zget f 19 =? 4)) eqn:HDR.
    { right. split; [intros (_ & Q1 & Q2 & Q3 & Q4 & _); lia|]. intros fr. discriminate. }
    destruct (Z.eqb_spec (Z.land (zget f 22) 1) 0) as [MC|MC]; cbn [negb].
    2: { right. split; [intros (_ & _ & _ & _ & _ & _ & _ & Q); congruence|]. intros fr. discriminate. }
    destruct ((rd16 f 20 =? 1) && (rd32 f 38 =? c_ip (i_conf i))) eqn:OP.
    - left. split; [unfold is_request_for; repeat split; try assumption; lia|]. cbn [snd]. eexists. split; [reflexivity|].
      assert (L1 : length (slice f 22 6) = 6%nat) by (unfold slice; rewrite firstn_length, skipn_length; unfold zlen in LL; lia).
      rewrite (slice_hdr f) by (try assumption; lia).
      remember (slice f 22 6) as S6. destruct S6 as [|s1 [|s2 [|s3 [|s4 [|s5 [|s6 [|]]]]]]]; try discriminate.
      destruct (i_mac i) as [|m1 [|m2 [|m3 [|m4 [|m5 [|m6 [|]]]]]]]; try discriminate. split.
      + rewrite !app_length, skipn_length. cbn [length be16 be32]. unfold zlen in LL. lia.
      + reflexivity.
    - right. split; [intros (_ & _ & _ & _ & _ & Q1 & Q2 & _); lia|]. intros fr.
      destruct (rd16 f 20 =? 2); [|discriminate]. destruct (dad && (rd32 f 28 =? c_ip (i_conf i))).
      { cbn [snd]. destruct (list_eq_dec Z.eq_dec (slice f 22 6) (i_mac i)); discriminate. }
      destruct ((rd32 f 28 =? 0) || (rd32 f 28 =? c_ip (i_conf i)) || ip_is_broadcast (map i_conf ifs) (rd32 f 28) || ip_is_multicast (rd32 f 28)); [discriminate|].
      destruct (arp_pending_match (a_pds st) ifx (rd32 f 28) (a_tick st)). discriminate. }
  destruct K as [(K1 & fr & K2 & K3 & K4)|[K1 K2]]; (split; [split|]).
  - intros _. exists fr. exact K2.
  - intros _. exact K1.
  - intros fr' H. rewrite K2 in H. assert (fr = fr') by congruence. subst. auto.
  - intros Q. contradiction.
  - intros [fr Q]. destruct (K2 fr Q).
  - intros fr Q. destruct (K2 fr Q).
Qed.

(** C20.  Requests are rate limited: while the clock does not go backwards, two
    requests that go out on one interface are more than a second apart. *)
Theorem arp_request_rate_limit : forall ifs e1 a e2 b ifx,
  Forall aev_wf (e1 ++ AReq ifx a :: e2) -> ~ In (APurge ifx) e2 ->
  (forall p now q, e2 = p ++ ATick now :: q -> clock ifs (e1 ++ AReq ifx a :: p) <= now) ->
  snd (arp_request ifs (arun ifs e1) ifx a) <> None ->
  snd (arp_request ifs (arun ifs (e1 ++ AReq ifx a :: e2)) ifx b) <> None ->
  clock ifs (e1 ++ AReq ifx a :: e2) > clock ifs e1 + 1000.
Proof.
  intros ifs e1 a e2 b ifx HW NP MONO S1 S2.
  assert (T0 : 0 <= clock ifs e1).
  { apply Forall_app in HW. destruct HW as [HW _]. unfold clock. clear S1 S2 NP MONO.
    induction e1 as [|e e1 IH] using rev_ind; [cbn; lia|]. apply Forall_app in HW. destruct HW as [HW1 HW2]. apply Forall_inv in HW2.
    specialize (IH HW1). rewrite arun_snoc. set (st := arun ifs e1) in *. clearbody st. destruct e; cbn in HW2 |- *.
    - assumption.
    - unfold arp_request. destruct (nth_error ifs (Z.to_nat ifx0)); [|assumption]. destruct (i_noneth i); [assumption|].
      destruct (negb _ && _); assumption.
    - assert (a_tick (fst (arp_recv ifs st ifx0 frame dad)) = a_tick st) as ->; [|assumption].
      unfold arp_recv. destruct (zlen frame <? 42); [reflexivity|]. destruct (nth_error ifs (Z.to_nat ifx0)); [|reflexivity].
      destruct (i_noneth i); [reflexivity|]. destruct (_ || _); [reflexivity|]. destruct (negb _); [reflexivity|].
      destruct (_ && _); [reflexivity|]. destruct (rd16 frame 20 =? 2); [|reflexivity]. destruct (_ && _); [reflexivity|].
      destruct (_ || _); [reflexivity|]. destruct (arp_pending_match _ _ _ _). reflexivity.
    - unfold arp_lookup. destruct (arp_neighbor_index _ _ _ _). assumption.
    - assumption. }
  assert (INV : a_last (arun ifs (e1 ++ AReq ifx a :: e2)) ifx >= clock ifs e1 + 1 /\ clock ifs (e1 ++ AReq ifx a :: e2) >= clock ifs e1).
  { clear S2 b. induction e2 as [|e e2 IH] using rev_ind.
    - rewrite arun_snoc. unfold clock. rewrite arun_snoc. cbn [astep]. set (st := arun ifs e1) in *. clearbody st.
      unfold arp_request in *. destruct (nth_error ifs (Z.to_nat ifx)); [|cbn in S1; congruence]. destruct (i_noneth i); [cbn in S1; congruence|].
      destruct (negb _ && _); [cbn in S1; congruence|]. cbn. rewrite Z.eqb_refl. unfold clock. lia.
    - replace (e1 ++ AReq ifx a :: e2 ++ [e]) with ((e1 ++ AReq ifx a :: e2) ++ [e]) in * by (rewrite <- app_assoc; reflexivity).
      apply Forall_app in HW. destruct HW as [HW1 HW2]. apply Forall_inv in HW2.
      destruct IH as [I1 I2]; [assumption|intros Q; apply NP; apply in_or_app; auto| |].
      { intros p now q ->. apply (MONO p now (q ++ [e])). rewrite <- app_assoc. reflexivity. }
      unfold clock in *. rewrite arun_snoc.
      specialize (fun now E => MONO e2 now [] E). set (st := arun ifs (e1 ++ AReq ifx a :: e2)) in *.
      set (t1 := a_tick (arun ifs e1)) in *. clearbody st t1. destruct e; cbn [astep].
      + specialize (MONO now eq_refl). unfold arp_tick. cbn. destruct (Z.ltb_spec now (a_tick st)); lia.
      + unfold arp_request. destruct (nth_error ifs (Z.to_nat ifx0)); [|cbn; lia]. destruct (i_noneth i); [cbn; lia|].
        destruct (negb _ && _); [cbn; lia|]. cbn. destruct (ifx =? ifx0); lia.
      + assert (X : a_last (fst (arp_recv ifs st ifx0 frame dad)) = a_last st /\ a_tick (fst (arp_recv ifs st ifx0 frame dad)) = a_tick st).
        { unfold arp_recv. destruct (zlen frame <? 42); [auto|]. destruct (nth_error ifs (Z.to_nat ifx0)); [|auto].
          destruct (i_noneth i); [auto|]. destruct (_ || _); [auto|]. destruct (negb _); [auto|].
          destruct (_ && _); [auto|]. destruct (rd16 frame 20 =? 2); [|auto]. destruct (_ && _); [auto|].
          destruct (_ || _); [auto|]. destruct (arp_pending_match _ _ _ _). auto. }
        destruct X as [-> ->]. lia.
      + unfold arp_lookup. destruct (arp_neighbor_index _ _ _ _). cbn. lia.
      + unfold arp_purge. cbn. destruct (Z.eqb_spec ifx ifx0) as [<- |D]; [|lia].
        exfalso. apply NP. apply in_or_app. right. left. reflexivity. }
  destruct INV as [I1 I2]. unfold clock in *. set (st := arun ifs (e1 ++ AReq ifx a :: e2)) in *. clearbody st.
  unfold arp_request in S2. destruct (nth_error ifs (Z.to_nat ifx)); [|cbn in S2; congruence]. destruct (i_noneth i); [cbn in S2; congruence|].
  destruct (negb (a_last st ifx =? 0) && (a_tick st <? a_last st ifx + 1000)) eqn:LIM; [cbn in S2; congruence|]. lia.
Qed.

(** Finding (why [ip <> 0] is required above): on interface 0 the lookup of 0.0.0.0
    matches a free slot and succeeds, with the MAC 00:00:00:00:00:00. *)
Theorem arp_lookup_of_zero_refuted : forall ifs,
  ~ (forall ip, snd (arp_lookup (arun ifs []) 0 ip) = None).
Proof. intros ifs H. specialize (H 0). discriminate H. Qed.

Print Assumptions arp_lookup_only_solicited.
Print Assumptions arp_lookup_is_fresh.
Print Assumptions arp_entries_unique.
Print Assumptions arp_mapping_change_needs_solicited_reply.
Print Assumptions arp_eviction_is_lru.
Print Assumptions arp_answers_exactly_own_requests.
Print Assumptions arp_request_rate_limit.

(** ** Non-vacuity *)
Definition ex_ifs : list iface := [mkIf [2; 0; 0; 0; 0; 1] false {| c_ip := 3232235777; c_mask := 4294967040; c_gw := 0 |}].
Definition ex_rep (ip : Z) (mac : list Z) : list Z :=
  arp_frame [2; 0; 0; 0; 0; 1] mac 2 mac ip [2; 0; 0; 0; 0; 1] 3232235777.
Definition ex_hist : list aev :=
  [ATick 1000; AReq 0 3232235779; ATick 1500; ARx 0 (ex_rep 3232235779 [2; 0; 0; 0; 0; 9]) false;
   ARx 0 (ex_rep 3232235779 [2; 0; 0; 0; 0; 66]) false; ARx 0 (ex_rep 3232235780 [2; 0; 0; 0; 0; 66]) false; ATick 60000].
Example ex_solicited : Forall aev_wf ex_hist /\
  snd (arp_lookup (arun ex_ifs ex_hist) 0 3232235779) = Some [2; 0; 0; 0; 0; 9] /\
  snd (arp_lookup (arun ex_ifs ex_hist) 0 3232235780) = None.
Proof. split; [repeat constructor; cbn; lia|]. split; vm_compute; reflexivity. Qed.
Example ex_aged : snd (arp_lookup (arun ex_ifs (ex_hist ++ [ATick 121501])) 0 3232235779) = None.
Proof. vm_compute. reflexivity. Qed.
Example ex_answer : snd (arp_recv ex_ifs arp_init 0
    (arp_frame [255; 255; 255; 255; 255; 255] [2; 0; 0; 0; 0; 7] 1 [2; 0; 0; 0; 0; 7] 3232235783 [0; 0; 0; 0; 0; 0] 3232235777) false)
  = ArpSend (arp_frame [2; 0; 0; 0; 0; 7] [2; 0; 0; 0; 0; 1] 2 [2; 0; 0; 0; 0; 1] 3232235777 [2; 0; 0; 0; 0; 7] 3232235783).
Proof. vm_compute. reflexivity. Qed.
Example ex_rate : snd (arp_request ex_ifs (arun ex_ifs [ATick 1000; AReq 0 3232235779; ATick 2000]) 0 3232235790) = None /\
  snd (arp_request ex_ifs (arun ex_ifs [ATick 1000; AReq 0 3232235779; ATick 2001]) 0 3232235790) <> None.
Proof. split; vm_compute; [reflexivity|discriminate]. Qed.
(** Seventeen neighbours: the first learnt is the one evicted. *)
Definition ex_full : list aev :=
  flat_map (fun k => [ATick (2000 * k); AReq 0 (3232235777 + k); ARx 0 (ex_rep (3232235777 + k) [2; 0; 0; 0; 1; k]) false])
    [1; 2; 3; 4; 5; 6; 7; 8; 9; 10; 11; 12; 13; 14; 15; 16; 17].
Example ex_evict : map (fun k => match snd (arp_lookup (arun ex_ifs ex_full) 0 (3232235777 + k)) with Some _ => true | None => false end) [1; 2; 3; 16; 17]
  = [false; true; true; true; true].
Proof. vm_compute. reflexivity. Qed.
