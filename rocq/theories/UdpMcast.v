(** Multicast membership: the per-socket joins and the interface table agree. *)
From Verif Require Import Base ListUtil Checksum ChecksumProps Route RouteProps Arp HttpUrl Fifo Forward ForwardSpec ForwardProofs ForwardStep Udp UdpFifo UdpSpec UdpFrames UdpInv UdpOps UdpFlush UdpSafe.

Lemma send_report_spec w st i g rec : uworld_ok w -> addr32 g -> multicast g -> rec = 2 \/ rec = 3 ->
  exists e v, igmp_send_report w st i g rec = Some (with_id st v, e) /\ reported w i g rec e.
Proof.
  intros HW HG HM HR. unfold igmp_send_report. pose proof (proj2 (multicast_iff g HG) HM) as MI. rewrite MI. cbn [negb].
  assert (SELF : st = with_id st (u_id st)) by (destruct st; reflexivity).
  destruct (nth_error (w_ifs w) (Z.to_nat i)) as [x|] eqn:N.
  2:{ exists [], (u_id st). rewrite <- SELF. split; [reflexivity|]. right. split; [reflexivity|]. intros x Hx. congruence. }
  destruct (Z.eqb_spec (c_ip (i_conf x)) 0) as [C0|C0].
  { exists [], (u_id st). rewrite <- SELF. split; [reflexivity|]. right. split; [reflexivity|]. intros y Hy. left. congruence. }
  destruct (igmp_frame_spec w i x (u_id st) g rec HW N HG HR) as (f & -> & RP). cbn [obind].
  assert (LF : zlen f = 54) by (destruct RP as (y & _ & LF & _); exact LF).
  destruct (Z.ltb_spec (w_mtu w i) (zlen f)).
  - exists [], (u16 (u_id st + 1)). split; [reflexivity|]. right. split; [reflexivity|]. intros y Hy. right. lia.
  - exists [UIgmp i f], (u16 (u_id st + 1)). split; [reflexivity|]. left. exists f. auto.
Qed.

(** ** Searching the two tables *)
Definition key (m : mship) (i g : Z) : Prop := m_group m = g /\ m_if m = i /\ m_refs m <> 0.
Lemma find_mship_spec i g : forall l n, match find_mship l n i g with
  | Some j => (n <= j)%nat /\ exists m, nth_error l (j - n) = Some m /\ key m i g
  | None => forall m, In m l -> ~ key m i g end.
Proof.
  induction l as [|m l IH]; intros n; cbn [find_mship]; [intros ? []|].
  destruct ((m_group m =? g) && (m_if m =? i) && negb (m_refs m =? 0)) eqn:E.
  - split; [lia|]. exists m. rewrite Nat.sub_diag. split; [reflexivity|]. unfold key. lia.
  - specialize (IH (S n)). destruct (find_mship l (S n) i g) as [j|].
    + destruct IH as (L & x & N & K). split; [lia|]. exists x. replace (j - n)%nat with (S (j - S n)) by lia. auto.
    + intros x [<- | Hx]; [unfold key; lia|auto].
Qed.
Lemma free_mship_spec : forall l n, match free_mship l n with
  | Some j => (n <= j)%nat /\ exists m, nth_error l (j - n) = Some m /\ m_refs m = 0
  | None => forall m, In m l -> m_refs m <> 0 end.
Proof.
  induction l as [|m l IH]; intros n; cbn [free_mship]; [intros ? []|]. destruct (Z.eqb_spec (m_refs m) 0).
  - split; [lia|]. exists m. rewrite Nat.sub_diag. auto.
  - specialize (IH (S n)). destruct (free_mship l (S n)) as [j|].
    + destruct IH as (L & x & N & K). split; [lia|]. exists x. replace (j - n)%nat with (S (j - S n)) by lia. auto.
    + intros x [<- | Hx]; auto.
Qed.
Lemma find_join_spec p : forall l n, match find_join l n p with
  | Some j => (n <= j)%nat /\ exists m, nth_error l (j - n) = Some m /\ p m = true
  | None => forall m, In m l -> p m = false end.
Proof.
  induction l as [|m l IH]; intros n; cbn [find_join]; [intros ? []|]. destruct (p m) eqn:E.
  - split; [lia|]. exists m. rewrite Nat.sub_diag. auto.
  - specialize (IH (S n)). destruct (find_join l (S n) p) as [j|].
    + destruct IH as (L & x & N & K). split; [lia|]. exists x. replace (j - n)%nat with (S (j - S n)) by lia. auto.
    + intros x [<- | Hx]; auto.
Qed.

(** ** Joining *)
Definition joins (w : world) (st : ust) (n g i : Z) (st' : ust) (e : list uev) : Prop :=
  exists s j x m m' v, let t := sock_at (u_udp st) n in
  nth_error (s_mc t) s = Some (0, x) /\ ~ joined t i g /\ nth_error (u_mc st) j = Some m /\
  ((key m i g /\ m' = (if m_refs m =? 255 then m else mkM g i (m_refs m + 1) (m_tmr m)) /\ e = []) \/
   ((forall y, In y (u_mc st) -> ~ key y i g) /\ m_refs m = 0 /\ m' = mkM g i 1 false /\ reported w i g 2 e)) /\
  st' = mkU (u_tcp st) (upd (u_udp st) n (set_mc (set_nth s (g, i) (s_mc t)) t)) (u_icmp st) (set_nth j m' (u_mc st)) v.
Lemma join_spec w st n g i : uworld_ok w -> Good st -> 0 <= n < 2 -> addr32 g -> 0 <= i ->
  exists st' r e, mcast_join w st n g i = Some (st', r, e) /\
    ((r < 0 /\ st' = st /\ e = []) \/ (r = 0 /\ multicast g /\ i < zlen (w_ifs w) /\ joins w st n g i st' e)) /\
    (multicast g -> i < zlen (w_ifs w) -> ~ joined (sock_at (u_udp st) n) i g -> (exists x, In (0, x) (s_mc (sock_at (u_udp st) n))) ->
      (exists m, In m (u_mc st) /\ (key m i g \/ m_refs m = 0)) -> r = 0).
Proof.
  intros HW HG Hn HA HI. pose proof HW as ((_ & WL & _) & _). unfold mcast_join. pose proof (multicast_iff g HA) as MI.
  destruct (ip_is_multicast g) eqn:EM; cbn [negb orb].
  2:{ exists st, (-22), []. split; [reflexivity|]. split; [left; split; [lia|auto]|]. intros M. apply MI in M. discriminate. }
  assert (M : multicast g) by (apply MI; reflexivity).
  destruct (Z.leb_spec (zlen (w_ifs w)) i). { exists st, (-22), []. split; [reflexivity|]. split; [left; split; [lia|auto]|]. intros _ X. lia. }
  set (t := sock_at (u_udp st) n). pose proof (has_mcast_iff t i g) as HJ. destruct (has_mcast t i g).
  { exists st, (-22), []. split; [reflexivity|]. split; [left; split; [lia|auto]|]. intros _ _ X. exfalso. apply X, HJ. reflexivity. }
  assert (NJ : ~ joined t i g) by (intros X; apply HJ in X; discriminate).
  pose proof (find_join_spec (fun m => fst m =? 0) (s_mc t) 0) as FJ. destruct (find_join (s_mc t) 0 _) as [s|].
  2:{ exists st, (-12), []. split; [reflexivity|]. split; [left; split; [lia|auto]|]. intros _ _ _ (x & Hx). specialize (FJ _ Hx). discriminate. }
  destruct FJ as (_ & [x1 x2] & NS & Z0). rewrite Nat.sub_0_r in NS. cbn [fst] in Z0. assert (x1 = 0) by lia. subst x1.
  assert (U8 : u8 i = i) by (unfold u8; apply Z.mod_small; lia).
  pose proof (find_mship_spec i g (u_mc st) 0) as FM. destruct (find_mship (u_mc st) 0 i g) as [j|].
  - destruct FM as (_ & m & NM & K). rewrite Nat.sub_0_r in NM. pose proof (nth_error_nth _ _ mship0 NM) as NN. rewrite NN. pose proof K as (K1 & K2 & K3).
    destruct (Z.eqb_spec (m_refs m) 0); [contradiction|]. cbv zeta. destruct (Z.eqb_spec (m_refs m) 0); [contradiction|]. cbn [obind].
    eexists _, 0, []. split; [reflexivity|]. split; [|reflexivity]. right. split; [reflexivity|]. split; [assumption|]. split; [lia|].
    exists s, j, x2, m, (if m_refs m =? 255 then m else mkM g i (m_refs m + 1) (m_tmr m)), (u_id st). cbv zeta. fold t. split; [assumption|]. split; [assumption|]. split; [assumption|].
    split; [left; auto|]. rewrite U8. destruct (m_refs m =? 255); unfold with_mc, with_udp; cbn [u_tcp u_udp u_icmp u_mc u_id]; rewrite ?K1, ?K2; reflexivity.
  - pose proof (free_mship_spec (u_mc st) 0) as FF. destruct (free_mship (u_mc st) 0) as [j|].
    2:{ exists st, (-12), []. split; [reflexivity|]. split; [left; split; [lia|auto]|]. intros _ _ _ _ (m & Hm & [K|K]); [exfalso; exact (FM m Hm K)|exfalso; exact (FF m Hm K)]. }
    destruct FF as (_ & m & NM & R0). rewrite Nat.sub_0_r in NM. pose proof (nth_error_nth _ _ mship0 NM) as NN. rewrite NN. rewrite R0. change (0 =? 0) with true. cbv iota zeta. cbn [m_refs]. change (0 =? 0) with true. cbv iota.
    match goal with |- context [igmp_send_report w ?s2 i g 2] => destruct (send_report_spec w s2 i g 2 HW HA M ltac:(auto)) as (e & v & -> & RP) end. cbn [obind].
    eexists _, 0, e. split; [reflexivity|]. split; [|reflexivity]. right. split; [reflexivity|]. split; [assumption|]. split; [lia|].
    exists s, j, x2, m, (mkM g i 1 false), v. cbv zeta. fold t. split; [assumption|]. split; [assumption|]. split; [assumption|].
    split; [right; auto|]. change (0 =? 255) with false. cbv iota. rewrite U8. reflexivity.
Qed.

(** ** Leaving *)
Definition leaves (w : world) (st : ust) (n g i : Z) (s : nat) (st' : ust) (e : list uev) : Prop :=
  exists v l, let t := sock_at (u_udp st) n in
  nth_error (s_mc t) s = Some (g, i) /\
  (((forall y, In y (u_mc st) -> ~ key y i g) /\ l = u_mc st /\ e = []) \/
   (exists j m, nth_error (u_mc st) j = Some m /\ key m i g /\
     ((m_refs m = 1 /\ l = set_nth j mship0 (u_mc st) /\ reported w i g 3 e) \/
      (m_refs m <> 1 /\ l = set_nth j (mkM g i (m_refs m - 1) (m_tmr m)) (u_mc st) /\ e = [])))) /\
  st' = mkU (u_tcp st) (upd (u_udp st) n (set_mc (set_nth s (0, 0) (s_mc t)) t)) (u_icmp st) l v.
Lemma drop_spec w st n g i : uworld_ok w -> Good st -> 0 <= n < 2 -> addr32 g -> 0 <= i ->
  exists st' r e, mcast_drop w st n g i = Some (st', r, e) /\
    ((r = -22 /\ st' = st /\ e = [] /\ (~ multicast g \/ zlen (w_ifs w) <= i \/ ~ joined (sock_at (u_udp st) n) i g)) \/
     (r = 0 /\ multicast g /\ i < zlen (w_ifs w) /\ exists s, leaves w st n g i s st' e)).
Proof.
  intros HW HG Hn HA HI. unfold mcast_drop. pose proof (multicast_iff g HA) as MI.
  destruct (ip_is_multicast g) eqn:EM; cbn [negb orb].
  2:{ exists st, (-22), []. split; [reflexivity|]. left. repeat (split; [reflexivity|]). left. intros M. apply MI in M. discriminate. }
  assert (M : multicast g) by (apply MI; reflexivity).
  destruct (Z.leb_spec (zlen (w_ifs w)) i). { exists st, (-22), []. split; [reflexivity|]. left. repeat (split; [reflexivity|]). auto. }
  set (t := sock_at (u_udp st) n). pose proof (find_join_spec (fun m => (fst m =? g) && (snd m =? i)) (s_mc t) 0) as FJ. destruct (find_join (s_mc t) 0 _) as [s|].
  2:{ exists st, (-22), []. split; [reflexivity|]. left. repeat (split; [reflexivity|]). right. right. intros J. specialize (FJ _ J). cbn [fst snd] in FJ. lia. }
  destruct FJ as (_ & [x1 x2] & NS & Z0). rewrite Nat.sub_0_r in NS. cbn [fst snd] in Z0. assert (x1 = g) by lia. assert (x2 = i) by lia. subst x1 x2.
  pose proof (find_mship_spec i g (u_mc st) 0) as FM. cbn [u_mc with_udp]. destruct (find_mship (u_mc st) 0 i g) as [j|].
  - destruct FM as (_ & m & NM & K). rewrite Nat.sub_0_r in NM. pose proof (nth_error_nth _ _ mship0 NM) as NN. rewrite NN. pose proof K as (K1 & K2 & K3).
    destruct (Z.eqb_spec (m_refs m - 1) 0) as [QQ|QQ].
    + match goal with |- context [igmp_send_report w ?s2 i g 3] => destruct (send_report_spec w s2 i g 3 HW HA M ltac:(auto)) as (e & v & -> & RP) end. cbn [obind].
      eexists _, 0, e. split; [reflexivity|]. right. split; [reflexivity|]. split; [assumption|]. split; [lia|]. exists s, v, (set_nth j mship0 (u_mc st)). cbv zeta. fold t. split; [assumption|].
      split; [|reflexivity]. right. exists j, m. split; [assumption|]. split; [assumption|]. left. split; [lia|auto].
    + eexists _, 0, []. split; [reflexivity|]. right. split; [reflexivity|]. split; [assumption|]. split; [lia|]. exists s, (u_id st), (set_nth j (mkM g i (m_refs m - 1) (m_tmr m)) (u_mc st)).
      cbv zeta. fold t. split; [assumption|]. split; [|rewrite K1, K2; reflexivity]. right. exists j, m. split; [assumption|]. split; [assumption|]. right. split; [lia|auto].
  - eexists _, 0, []. split; [reflexivity|]. right. split; [reflexivity|]. split; [assumption|]. split; [lia|]. exists s, (u_id st), (u_mc st). cbv zeta. fold t. split; [assumption|].
    split; [|reflexivity]. left. auto.
Qed.

(** ** The invariant *)
Definition b2z (b : bool) : Z := if b then 1 else 0.
Fixpoint cnt (l : list sock) (i g : Z) : Z := match l with [] => 0 | t :: l => b2z (has_mcast t i g) + cnt l i g end.
Definition share (m : mship) (i g : Z) : Z := if (m_group m =? g) && (m_if m =? i) then m_refs m else 0.
Fixpoint sumr (l : list mship) (i g : Z) : Z := match l with [] => 0 | m :: l => share m i g + sumr l i g end.
Record MI (N : Z) (l : list sock) (M : list mship) : Prop := {
  mi_closed : forall t, In t l -> s_open t = false -> forall m, In m (s_mc t) -> fst m = 0;
  mi_range : forall t g i, In t l -> In (g, i) (s_mc t) -> g <> 0 -> multicast g /\ 0 <= i < N;
  mi_once : forall t a b m, In t l -> nth_error (s_mc t) a = Some m -> nth_error (s_mc t) b = Some m -> fst m <> 0 -> a = b;
  mi_unique : forall a b m m' i g, nth_error M a = Some m -> nth_error M b = Some m' -> key m i g -> key m' i g -> a = b;
  mi_agree : forall g i, multicast g -> sumr M i g = cnt l i g;
  mi_refs : forall m, In m M -> 0 <= m_refs m /\ (m_refs m <> 0 -> multicast (m_group m)) }.

Lemma cnt_range l i g : 0 <= cnt l i g <= zlen l.
Proof. induction l as [|t l IH]; cbn [cnt]; [unfold zlen; cbn; lia|]. rewrite zlen_cons. destruct (has_mcast t i g); cbn [b2z]; lia. Qed.
Lemma cnt_zero l i g : cnt l i g = 0 <-> forall t, In t l -> ~ joined t i g.
Proof.
  induction l as [|t l IH]; cbn [cnt]; [split; [intros _ t []|reflexivity]|]. pose proof (cnt_range l i g). pose proof (has_mcast_iff t i g) as H1.
  destruct (has_mcast t i g); cbn [b2z].
  - split; [lia|]. intros F. exfalso. apply (F t); [left; reflexivity|]. apply H1. reflexivity.
  - rewrite Z.add_0_l. rewrite IH. split; [|intros F u Hu; apply F; right; assumption]. intros F u [<- | Hu]; [|auto]. intros J. apply H1 in J. discriminate.
Qed.
Lemma cnt_upd t' i g : forall l n, (n < length l)%nat -> cnt (set_nth n t' l) i g = cnt l i g - b2z (has_mcast (nth n l sock0) i g) + b2z (has_mcast t' i g).
Proof.
  induction l as [|t l IH]; intros n Hn; [cbn in Hn; lia|]. destruct n; cbn [set_nth cnt nth]; [lia|]. cbn [length] in Hn. rewrite IH by lia. lia.
Qed.
Lemma sumr_set m m' i g : forall M j, nth_error M j = Some m -> sumr (set_nth j m' M) i g = sumr M i g - share m i g + share m' i g.
Proof.
  induction M as [|x M IH]; intros j Hj; [destruct j; discriminate|]. destruct j; cbn [set_nth sumr nth_error] in *; [injection Hj as ->; lia|]. rewrite (IH j Hj). lia.
Qed.
Lemma sumr_key M i g : (forall m, In m M -> 0 <= m_refs m) -> 0 <= sumr M i g /\ (forall m, In m M -> share m i g <= sumr M i g) /\ (sumr M i g = 0 <-> forall m, In m M -> ~ key m i g).
Proof.
  induction M as [|m M IH]; intros F; cbn [sumr].
  - split; [lia|]. split; [intros ? []|]. split; [intros _ ? []|reflexivity].
  - destruct IH as (A & B & C); [intros; apply F; right; assumption|]. pose proof (F m (or_introl eq_refl)) as Fm.
    assert (S : 0 <= share m i g /\ (share m i g = 0 <-> ~ key m i g)).
    { unfold share, key. destruct ((m_group m =? g) && (m_if m =? i)) eqn:E; [split; [assumption|]; split; intros; [lia|]; destruct (Z.eq_dec (m_refs m) 0); [assumption|exfalso; apply H; lia]|split; [lia|]; split; intros; [lia|reflexivity]]. }
    destruct S as (S0 & S1). split; [lia|]. split; [intros x [<- | Hx]; [lia|specialize (B x Hx); lia]|]. split.
    + intros E x [<- | Hx]; [apply S1; lia|]. apply C; [lia|assumption].
    + intros H. assert (share m i g = 0) by (apply S1, H; left; reflexivity). assert (sumr M i g = 0) by (apply C; intros x Hx; apply H; right; assumption). lia.
Qed.
Lemma sumr_unique M i g : (forall m, In m M -> 0 <= m_refs m) -> (forall a b m m', nth_error M a = Some m -> nth_error M b = Some m' -> key m i g -> key m' i g -> a = b) ->
  forall j m, nth_error M j = Some m -> key m i g -> sumr M i g = m_refs m.
Proof.
  induction M as [|x M IH]; intros F U j m Nj K; [destruct j; discriminate|]. cbn [sumr]. destruct j.
  - injection Nj as ->. destruct (sumr_key M i g) as (_ & _ & C); [intros; apply F; right; assumption|]. assert (Z0 : sumr M i g = 0).
    { apply C. intros y Hy Ky. apply In_nth_error in Hy as (b & Hb). specialize (U 0%nat (S b) m y eq_refl Hb K Ky). discriminate. }
    rewrite Z0. destruct K as (K1 & K2 & K3). unfold share. rewrite K1, K2, !Z.eqb_refl. cbn [andb]. lia.
  - cbn [nth_error] in Nj. rewrite (IH (fun y Hy => F y (or_intror Hy)) (fun a b y y' Ha Hb Ka Kb => eq_add_S _ _ (U (S a) (S b) y y' Ha Hb Ka Kb)) j m Nj K).
    assert (share x i g = 0); [|lia]. unfold share. destruct ((m_group x =? g) && (m_if x =? i)) eqn:E; [|reflexivity].
    destruct (Z.eq_dec (m_refs x) 0) as [|NZ]; [assumption|]. exfalso. assert (Kx : key x i g) by (unfold key; lia). specialize (U 0%nat (S j) x m eq_refl Nj Kx K). discriminate.
Qed.
Lemma MI_unique N l M j m i g : MI N l M -> nth_error M j = Some m -> key m i g -> m_refs m = cnt l i g.
Proof.
  intros H Nj K. rewrite <- (mi_agree _ _ _ H).
  - symmetry. eapply sumr_unique; [intros x Hx; apply (mi_refs _ _ _ H x Hx)| |exact Nj|exact K]. intros a b x y Ha Hb Kx Ky. exact (mi_unique _ _ _ H a b x y i g Ha Hb Kx Ky).
  - destruct K as (<- & _ & K3). apply (mi_refs _ _ _ H m); [eapply nth_error_In; exact Nj|assumption].
Qed.
Lemma MI_member N l M i g : MI N l M -> g <> 0 -> (exists m, In m M /\ key m i g) <-> exists t, In t l /\ joined t i g.
Proof.
  intros H G0. split.
  - intros (m & Hm & K). apply In_nth_error in Hm as (j & Hj). pose proof (MI_unique N l M j m i g H Hj K) as E. destruct K as (_ & _ & K3).
    destruct (existsb (fun t => has_mcast t i g) l) eqn:X; [apply existsb_exists in X as (t & Ht & Jt); exists t; split; [assumption|apply has_mcast_iff; assumption]|].
    exfalso. apply K3. rewrite E. apply cnt_zero. intros t Ht J. apply has_mcast_iff in J. assert (existsb (fun t => has_mcast t i g) l = true) by (apply existsb_exists; eauto). congruence.
  - intros (t & Ht & J). assert (MG : multicast g) by (apply (mi_range _ _ _ H t g i Ht J G0)).
    assert (NZ : sumr M i g <> 0). { rewrite (mi_agree _ _ _ H g i MG). intros Z0. apply cnt_zero with (t := t) in Z0; [|assumption]. contradiction. }
    destruct (existsb (fun m => (m_group m =? g) && (m_if m =? i) && negb (m_refs m =? 0)) M) eqn:X.
    + apply existsb_exists in X as (m & Hm & E). exists m. split; [assumption|]. unfold key. lia.
    + exfalso. apply NZ. apply sumr_key; [intros m Hm; apply (mi_refs _ _ _ H m Hm)|]. intros m Hm K.
      assert (existsb (fun m => (m_group m =? g) && (m_if m =? i) && negb (m_refs m =? 0)) M = true); [|congruence]. apply existsb_exists. exists m. split; [assumption|]. unfold key in K. lia.
Qed.
Lemma nth_set {A} (l : list A) s v k m : nth_error (set_nth s v l) k = Some m -> (k = s /\ m = v) \/ (k <> s /\ nth_error l k = Some m).
Proof.
  rewrite set_nth_nth_error. destruct (Nat.eqb_spec s k) as [-> | N]; [|auto]. destruct (Nat.ltb k (length l)); [|discriminate]. intros E. injection E as <-. auto.
Qed.
Lemma share_key m i g : share m i g = if (m_group m =? g) && (m_if m =? i) then m_refs m else 0. Proof. reflexivity. Qed.
Lemma join_mc (mc : list (Z * Z)) s (x g0 i0 g i : Z) : nth_error mc s = Some (0, x) -> g <> 0 -> In (g, i) (set_nth s (g0, i0) mc) <-> (g = g0 /\ i = i0) \/ In (g, i) mc.
Proof.
  intros NS G0. split.
  - intros H. apply In_nth_error in H as (k & H). apply nth_set in H as [(_ & E)|(_ & H)]; [left; injection E; auto|right; eapply nth_error_In; exact H].
  - intros [(-> & ->)|H].
    + eapply nth_error_In. apply set_nth_same. apply nth_error_Some. congruence.
    + apply In_nth_error in H as (k & H). apply (nth_error_In _ k). rewrite set_nth_other; [assumption|]. intros ->. congruence.
Qed.
Lemma leave_mc (mc : list (Z * Z)) s (g0 i0 g i : Z) : nth_error mc s = Some (g0, i0) -> (forall a b m, nth_error mc a = Some m -> nth_error mc b = Some m -> fst m <> 0 -> a = b) -> g <> 0 ->
  In (g, i) (set_nth s (0, 0) mc) <-> In (g, i) mc /\ ~ (g = g0 /\ i = i0).
Proof.
  intros NS U G0. split.
  - intros H. apply In_nth_error in H as (k & H). apply nth_set in H as [(_ & E)|(NK & H)]; [injection E; congruence|]. split; [eapply nth_error_In; exact H|].
    intros (-> & ->). apply NK. apply (U k s (g0, i0)); assumption.
  - intros (H & N). apply In_nth_error in H as (k & H). apply (nth_error_In _ k). rewrite set_nth_other; [assumption|]. intros ->. apply N. rewrite NS in H. injection H as -> ->. auto.
Qed.
Lemma has_eq t t' i g : (joined t' i g <-> joined t i g) -> has_mcast t' i g = has_mcast t i g.
Proof. intros H. pose proof (has_mcast_iff t i g). pose proof (has_mcast_iff t' i g). destruct (has_mcast t i g), (has_mcast t' i g); try reflexivity; exfalso; intuition congruence. Qed.
Lemma multicast_nz g : multicast g -> g <> 0.
Proof. unfold multicast. lia. Qed.

Lemma MI_step N l M n t t' M' : 0 <= n < zlen l -> sock_at l n = t -> MI N l M ->
  (s_open t' = false -> forall m, In m (s_mc t') -> fst m = 0) ->
  (forall g i, In (g, i) (s_mc t') -> g <> 0 -> multicast g /\ 0 <= i < N) ->
  (forall a b m, nth_error (s_mc t') a = Some m -> nth_error (s_mc t') b = Some m -> fst m <> 0 -> a = b) ->
  (forall a b m m' i g, nth_error M' a = Some m -> nth_error M' b = Some m' -> key m i g -> key m' i g -> a = b) ->
  (forall g i, multicast g -> sumr M' i g - sumr M i g = b2z (has_mcast t' i g) - b2z (has_mcast t i g)) ->
  (forall m, In m M' -> 0 <= m_refs m /\ (m_refs m <> 0 -> multicast (m_group m))) -> MI N (upd l n t') M'.
Proof.
  intros Hn Et H C R U UM AG RF. constructor.
  - intros u Hu Ou m Hm. apply set_nth_in in Hu as [-> | Hu]; [eapply C; eassumption|eapply mi_closed; eassumption].
  - intros u g i Hu. apply set_nth_in in Hu as [-> | Hu]; [apply R|apply (mi_range _ _ _ H u g i Hu)].
  - intros u a b m Hu. apply set_nth_in in Hu as [-> | Hu]; [apply U|apply (mi_once _ _ _ H u a b m Hu)].
  - exact UM.
  - intros g i MG. unfold upd. rewrite cnt_upd by (unfold zlen in Hn; lia). unfold sock_at in Et. rewrite Et. specialize (AG g i MG). rewrite <- (mi_agree _ _ _ H g i MG). lia.
  - exact RF.
Qed.
Lemma MI_join N w st n g i st' e : Good st -> 0 <= n < 2 -> MI N (u_udp st) (u_mc st) -> s_open (sock_at (u_udp st) n) = true -> multicast g -> 0 <= i < N ->
  joins w st n g i st' e -> MI N (u_udp st') (u_mc st').
Proof.
  intros HG Hn H OP MG HI (s & j & x & m & m' & v & J). cbv zeta in J. destruct J as (NS & NJ & NM & CS & ->). cbn [u_udp u_mc].
  pose proof HG as (_ & GL & _). set (t := sock_at (u_udp st) n) in *. assert (Ht : In t (u_udp st)) by (eapply nth_error_In, at_some; lia).
  set (t' := set_mc (set_nth s (g, i) (s_mc t)) t). pose proof (multicast_nz g MG) as GZ.
  assert (JN : forall g1 i1, g1 <> 0 -> joined t' i1 g1 <-> (g1 = g /\ i1 = i) \/ joined t i1 g1) by (intros; apply (join_mc (s_mc t) s x); assumption).
  assert (CASE : (m' = mkM g i (m_refs m' ) (m_tmr m')) /\ m_refs m' = share m i g + 1 /\ (m_refs m = 0 \/ key m i g)).
  { destruct CS as [(K & -> & _)|(_ & R0 & -> & _)].
    - pose proof (MI_unique _ _ _ _ _ _ _ H NM K) as RM. pose proof (cnt_range (u_udp st) i g) as CR. pose proof K as (K1 & K2 & K3).
      destruct (Z.eqb_spec (m_refs m) 255); [lia|]. cbn [m_refs m_tmr]. split; [reflexivity|]. split; [unfold share; rewrite K1, K2, !Z.eqb_refl; reflexivity|auto].
    - cbn [m_refs m_tmr]. split; [reflexivity|]. split; [unfold share; rewrite R0; destruct (_ && _); reflexivity|auto]. }
  destruct CASE as (EM & RM & MM). assert (SH : forall g1 i1, multicast g1 -> share m i1 g1 = if (g =? g1) && (i =? i1) then share m i g else 0).
  { intros g1 i1 _. destruct ((g =? g1) && (i =? i1)) eqn:E; [assert (g1 = g) by lia; assert (i1 = i) by lia; subst; reflexivity|]. unfold share. destruct MM as [R0 | (K1 & K2 & _)]; [rewrite R0; destruct ((m_group m =? g1) && (m_if m =? i1)); reflexivity|]. rewrite K1, K2, E. reflexivity. }
  assert (MP : 0 <= share m i g). { unfold share. destruct (_ && _); [|lia]. apply (mi_refs _ _ _ H m). eapply nth_error_In. exact NM. }
  apply (MI_step N (u_udp st) (u_mc st) n t t'); [lia|reflexivity|assumption| | | | | |].
  - cbn [s_open t' set_mc]. congruence.
  - intros g1 i1 Hin G1. apply JN in Hin as [(-> & ->)|Hin]; [auto| |assumption]. apply (mi_range _ _ _ H t g1 i1 Ht Hin G1).
  - intros a b m1 Ha Hb F1. cbn [t' set_mc s_mc] in Ha, Hb. apply nth_set in Ha as [(Ea & Ma)|(Na & Ma)]; apply nth_set in Hb as [(Eb & Mb)|(Nb & Mb)].
    + congruence. + exfalso. apply NJ. subst m1. eapply nth_error_In. exact Mb. + exfalso. apply NJ. subst m1. eapply nth_error_In. exact Ma. + eapply (mi_once _ _ _ H t); eassumption.
  - intros a b m1 m2 i1 g1 Ha Hb K1 K2. apply nth_set in Ha as [(Ea & Ma)|(Na & Ma)]; apply nth_set in Hb as [(Eb & Mb)|(Nb & Mb)]; [congruence| | |eapply (mi_unique _ _ _ H); eassumption].
    + exfalso. subst m1. rewrite EM in K1. destruct K1 as (K1 & K1' & _). cbn [m_group m_if] in K1, K1'. subst g1 i1. destruct CS as [(K & _)|(NK & _)]; [apply Nb; eapply (mi_unique _ _ _ H); eassumption|].
      eapply NK; [eapply nth_error_In; exact Mb|exact K2].
    + exfalso. subst m2. rewrite EM in K2. destruct K2 as (K2 & K2' & _). cbn [m_group m_if] in K2, K2'. subst g1 i1. destruct CS as [(K & _)|(NK & _)]; [apply Na; eapply (mi_unique _ _ _ H); eassumption|].
      eapply NK; [eapply nth_error_In; exact Ma|exact K1].
  - intros g1 i1 MG1. rewrite (sumr_set m m' i1 g1 _ _ NM). rewrite (SH g1 i1 MG1). assert (S' : share m' i1 g1 = if (g =? g1) && (i =? i1) then share m i g + 1 else 0) by (rewrite EM; unfold share at 1; cbn [m_group m_if m_refs]; rewrite RM; reflexivity).
    rewrite S'. destruct ((g =? g1) && (i =? i1)) eqn:E.
    + assert (g1 = g) by lia. assert (i1 = i) by lia. subst g1 i1. assert (X1 : has_mcast t' i g = true) by (apply has_mcast_iff, JN; auto).
      assert (X2 : has_mcast t i g = false) by (destruct (has_mcast t i g) eqn:Q; [apply has_mcast_iff in Q; contradiction|reflexivity]). rewrite X1, X2. cbn [b2z]. lia.
    + rewrite (has_eq t t' i1 g1); [lia|]. rewrite JN by (apply multicast_nz; assumption). split; [|auto]. intros [(-> & ->)|X]; [lia|assumption].
  - intros m1 Hm. apply set_nth_in in Hm as [-> | Hm]; [|apply (mi_refs _ _ _ H m1 Hm)]. split; [lia|]. intros _. rewrite EM. exact MG.
Qed.
Lemma MI_leave N w st n g i s st' e : Good st -> 0 <= n < 2 -> MI N (u_udp st) (u_mc st) -> multicast g ->
  leaves w st n g i s st' e -> MI N (u_udp st') (u_mc st').
Proof.
  intros HG Hn H MG (v & M' & L). cbv zeta in L. destruct L as (NS & CS & ->). cbn [u_udp u_mc].
  pose proof HG as (_ & GL & _). set (t := sock_at (u_udp st) n) in *. assert (Ht : In t (u_udp st)) by (eapply nth_error_In, at_some; lia).
  set (t' := set_mc (set_nth s (0, 0) (s_mc t)) t). pose proof (multicast_nz g MG) as GZ.
  pose proof (mi_once _ _ _ H t) as ON. assert (ON' : forall a b m, nth_error (s_mc t) a = Some m -> nth_error (s_mc t) b = Some m -> fst m <> 0 -> a = b) by (intros; eapply ON; eassumption).
  assert (JN : forall g1 i1, g1 <> 0 -> joined t' i1 g1 <-> joined t i1 g1 /\ ~ (g1 = g /\ i1 = i)) by (intros; apply (leave_mc (s_mc t) s); assumption).
  assert (JT : joined t i g) by (eapply nth_error_In; exact NS).
  assert (NZ : cnt (u_udp st) i g <> 0) by (intros Z0; apply cnt_zero with (t := t) in Z0; [contradiction|assumption]).
  destruct CS as [(NK & _ & _)|(j & m & NM & K & CS)].
  { exfalso. destruct (proj2 (MI_member N _ _ i g H GZ)) as (m & Hm & K); [exists t; auto|]. exact (NK m Hm K). }
  pose proof K as (K1 & K2 & K3). pose proof (MI_unique _ _ _ _ _ _ _ H NM K) as RM. pose proof (cnt_range (u_udp st) i g) as CR.
  assert (exists m', M' = set_nth j m' (u_mc st) /\ m_refs m' = m_refs m - 1 /\ (m_refs m' <> 0 -> m_group m' = g /\ m_if m' = i)) as (m' & -> & R' & G').
  { destruct CS as [(R1 & -> & _)|(R1 & -> & _)]; eexists; (split; [reflexivity|]); cbn [mship0 m_refs m_group m_if]; (split; [lia|]); [congruence|auto]. }
  assert (SH : forall g1 i1, share m i1 g1 = if (g =? g1) && (i =? i1) then m_refs m else 0) by (intros; unfold share; rewrite K1, K2; reflexivity).
  assert (SH' : forall g1 i1, share m' i1 g1 = if (g =? g1) && (i =? i1) then m_refs m - 1 else 0).
  { intros. unfold share. rewrite R'. destruct (Z.eq_dec (m_refs m') 0) as [Z0|Z0]; [replace (m_refs m - 1) with 0 by lia; destruct (_ && _), (_ && _); reflexivity|]. destruct (G' Z0) as (-> & ->). reflexivity. }
  apply (MI_step N (u_udp st) (u_mc st) n t t'); [lia|reflexivity|assumption| | | | | |].
  - cbn [s_open t' set_mc s_mc]. intros O m1 Hm. exfalso. apply GZ. exact (mi_closed _ _ _ H t Ht O (g, i) JT).
  - intros g1 i1 Hin G1. apply JN in Hin as (Hin & _); [|assumption]. apply (mi_range _ _ _ H t g1 i1 Ht Hin G1).
  - intros a b m1 Ha Hb F1. cbn [t' set_mc s_mc] in Ha, Hb. apply nth_set in Ha as [(Ea & Ma)|(Na & Ma)]; apply nth_set in Hb as [(Eb & Mb)|(Nb & Mb)]; try congruence; try (subst m1; cbn [fst] in F1; congruence). eapply ON'; eassumption.
  - intros a b m1 m2 i1 g1 Ha Hb Ka Kb. apply nth_set in Ha as [(Ea & Ma)|(Na & Ma)]; apply nth_set in Hb as [(Eb & Mb)|(Nb & Mb)]; [congruence| | |eapply (mi_unique _ _ _ H); eassumption].
    + subst m1 a. destruct Ka as (A1 & A2 & A3). destruct (G' A3) as (G1 & G2). assert (key m i1 g1) by (unfold key; rewrite <- A1, <- A2; rewrite G1, G2; auto). eapply (mi_unique _ _ _ H); eassumption.
    + subst m2 b. destruct Kb as (A1 & A2 & A3). destruct (G' A3) as (G1 & G2). assert (key m i1 g1) by (unfold key; rewrite <- A1, <- A2; rewrite G1, G2; auto). eapply (mi_unique _ _ _ H); eassumption.
  - intros g1 i1 MG1. rewrite (sumr_set m m' i1 g1 _ _ NM). rewrite SH, SH'. destruct ((g =? g1) && (i =? i1)) eqn:E.
    + assert (g1 = g) by lia. assert (i1 = i) by lia. subst g1 i1. assert (X1 : has_mcast t i g = true) by (apply has_mcast_iff; assumption).
      assert (X2 : has_mcast t' i g = false) by (destruct (has_mcast t' i g) eqn:Q; [apply has_mcast_iff, JN in Q; [exfalso; tauto|assumption]|reflexivity]). rewrite X1, X2. cbn [b2z]. lia.
    + rewrite (has_eq t t' i1 g1); [lia|]. rewrite JN by (apply multicast_nz; assumption). split; [tauto|]. intros X. split; [assumption|]. intros (-> & ->). lia.
  - intros m1 Hm. apply set_nth_in in Hm as [-> | Hm]; [|apply (mi_refs _ _ _ H m1 Hm)]. split; [lia|]. intros X. destruct (G' X) as (-> & _). exact MG.
Qed.

(** ** The tables stay in order *)
Lemma SI_mc rx t mc : SI rx t -> mc_ok mc -> SI rx (set_mc mc t).
Proof. intros (Q1 & F1 & Q2 & F2 & M & R) H. split; [exact Q1|]. split; [exact F1|]. split; [exact Q2|]. split; [exact F2|]. split; [exact H|exact R]. Qed.
Lemma mc_ok_set mc s g i : mc_ok mc -> addr32 g -> 0 <= i < 256 -> mc_ok (set_nth s (g, i) mc).
Proof.
  intros (L & F) A I. split; [unfold zlen in *; rewrite set_nth_length; assumption|]. apply Forall_forall. intros m Hm. apply set_nth_in in Hm as [-> | Hm]; [split; assumption|].
  rewrite Forall_forall in F. auto.
Qed.
Lemma mc_table_set (M : list mship) j m : zlen M = 8 -> Forall (fun m => addr32 (m_group m)) M -> addr32 (m_group m) -> zlen (set_nth j m M) = 8 /\ Forall (fun m => addr32 (m_group m)) (set_nth j m M).
Proof.
  intros L F A. split; [unfold zlen in *; rewrite set_nth_length; assumption|]. apply Forall_forall. intros x Hx. apply set_nth_in in Hx as [-> | Hx]; [assumption|]. rewrite Forall_forall in F. auto.
Qed.
Lemma addr0 : addr32 0. Proof. unfold addr32. lia. Qed.
Lemma joins_good w st n g i st' e : uworld_ok w -> Good st -> 0 <= n < 2 -> addr32 g -> 0 <= i < zlen (w_ifs w) -> joins w st n g i st' e -> Good st'.
Proof.
  intros ((_ & WL & _) & _) (G1 & G2 & G3 & G4 & G5 & G6 & G7) Hn HA HI (s & j & x & m & m' & v & J). cbv zeta in J. destruct J as (NS & NJ & NM & CS & ->).
  set (t := sock_at (u_udp st) n) in *. assert (ST : SI rx_udp t) by (apply at_Forall; [assumption|lia]).
  assert (AM : addr32 (m_group m')).
  { destruct CS as [(_ & -> & _)|(_ & _ & -> & _)]; [|assumption]. destruct (m_refs m =? 255); [|assumption]. rewrite Forall_forall in G7. apply (G7 m). eapply nth_error_In. exact NM. }
  destruct (mc_table_set (u_mc st) j m' G6 G7 AM) as (T1 & T2).
  split; [assumption|]. split; [cbn [u_udp]; rewrite upd_len; assumption|]. split.
  { cbn [u_udp]. apply upd_Forall; [assumption|]. apply SI_mc; [assumption|]. apply mc_ok_set; [apply ST|assumption|lia]. }
  split; [assumption|]. split; [assumption|]. split; assumption.
Qed.
Lemma leaves_good w st n g i s st' e : Good st -> 0 <= n < 2 -> addr32 g -> leaves w st n g i s st' e -> Good st'.
Proof.
  intros (G1 & G2 & G3 & G4 & G5 & G6 & G7) Hn HA (v & l & L). cbv zeta in L. destruct L as (NS & CS & ->).
  set (t := sock_at (u_udp st) n) in *. assert (ST : SI rx_udp t) by (apply at_Forall; [assumption|lia]).
  assert (T : zlen l = 8 /\ Forall (fun m => addr32 (m_group m)) l).
  { destruct CS as [(_ & -> & _)|(j & m & _ & _ & [(_ & -> & _)|(_ & -> & _)])]; [auto|apply mc_table_set; [assumption|assumption|apply addr0]|apply mc_table_set; assumption]. }
  split; [assumption|]. split; [cbn [u_udp]; rewrite upd_len; assumption|]. split.
  { cbn [u_udp]. apply upd_Forall; [assumption|]. apply SI_mc; [assumption|]. apply mc_ok_set; [apply ST|apply addr0|lia]. }
  split; [assumption|]. split; [assumption|]. exact T.
Qed.
Lemma drop_all_good w n : uworld_ok w -> 0 <= n < 2 -> forall todo st i, Good st -> exists st' e, mcast_drop_all w st n i todo = Some (st', e) /\ Good st'.
Proof.
  intros HW Hn. induction todo as [|todo IH]; intros st i G; cbn [mcast_drop_all]; [exists st, []; auto|].
  destruct (nth i (s_mc (sock_at (u_udp st) n)) (0, 0)) as [g ifx] eqn:NE. destruct (Z.eqb_spec g 0) as [G0|G0].
  - cbn [obind]. destruct (IH st (S i) G) as (st' & e & -> & G'). cbn [obind]. exists st', ([] ++ e). auto.
  - assert (ST : SI rx_udp (sock_at (u_udp st) n)) by (apply (slot_at st FUdp); [assumption|cbn [socks]; destruct G as (_ & -> & _); lia]).
    destruct ST as (_ & _ & _ & _ & (ML & MF) & _). rewrite Forall_forall in MF. assert (IN : In (g, ifx) (s_mc (sock_at (u_udp st) n))).
    { rewrite <- NE. apply nth_In. destruct (Nat.lt_ge_cases i (length (s_mc (sock_at (u_udp st) n)))); [assumption|]. rewrite nth_overflow in NE by assumption. congruence. }
    destruct (MF _ IN) as (A1 & A2). cbn [fst snd] in A1, A2.
    destruct (drop_spec w st n g ifx HW G Hn A1 ltac:(lia)) as (st1 & r & e1 & -> & C). cbn [obind].
    assert (G1 : Good st1). { destruct C as [(_ & -> & _)|(_ & _ & _ & s & L)]; [assumption|eapply leaves_good; eassumption]. }
    destruct (IH st1 (S i) G1) as (st' & e & -> & G'). cbn [obind]. exists st', (e1 ++ e). auto.
Qed.
Lemma close_good w st fd : uworld_ok w -> Good st -> exists st' r e, close w st fd = Some (st', r, e) /\ Good st'.
Proof.
  intros HW G. unfold close. destruct (decode_spec st fd) as [(e & -> & _)|(k & i & -> & D & R)]; [eexists _, _, _; split; [reflexivity|assumption]|].
  destruct D as (_ & _ & D & _). destruct k; cbn [socks] in D.
  - destruct (s_closed _); eexists _, _, _; (split; [reflexivity|]); [apply Good_tcp; assumption|assumption].
  - assert (Hi : 0 <= i < 2) by (destruct G as (_ & G2 & _); lia). destruct (s_open _).
    + destruct (drop_all_good w i HW Hi 4 st 0%nat G) as (st1 & e & -> & G1). cbn [obind]. eexists _, _, _. split; [reflexivity|]. apply Good_udp; [assumption|apply SI0].
    + cbn [obind]. eexists _, _, _. split; [reflexivity|]. apply Good_udp; [assumption|apply SI0].
  - eexists _, _, _. split; [reflexivity|]. apply Good_icmp; [assumption|apply SI0].
Qed.
Lemma find_if_range w a i : if_for_local_ip w a = (i, true) -> 0 <= i < zlen (w_ifs w).
Proof.
  unfold if_for_local_ip. destruct (zlen (w_confs w) =? 0); [discriminate|]. destruct (a =? 0); [discriminate|].
  pose proof (find_if_spec a (w_confs w) 0) as F. destruct (find_if (w_confs w) 0 a) as [j|].
  - intros E. injection E as <-. destruct F as [(i & E & R & _)|(E & _)]; [injection E as <-; rewrite zlen_confs in R; lia|discriminate].
  - discriminate.
Qed.
Lemma mcast_if_range w a g i : uworld_ok w -> addr32 g -> mcast_if_from_addr w a g = Some i -> 0 <= i < zlen (w_ifs w).
Proof.
  intros HW HA. unfold mcast_if_from_addr. destruct (negb (ip_is_multicast g)); [discriminate|]. destruct (a =? 0).
  - cbv zeta. destruct (negb (conf_ip w (route_for_ip w g) =? 0)) eqn:E; [|discriminate]. intros Q. injection Q as <-.
    destruct HW as ((W1 & W2 & W3 & W4) & _). unfold route_for_ip in *. destruct (w_confs w) as [|c0 cs0] eqn:CN; [unfold conf_ip in E; rewrite CN in E; cbn in E; discriminate|].
    rewrite <- CN in *. assert (NE : w_confs w <> []) by congruence.
    assert (FC : Forall conf_ok (w_confs w)). { apply Forall_forall. intros c Hc. apply in_map_iff in Hc as (x & <- & Hx). rewrite Forall_forall in W1. apply (W1 x Hx). }
    pose proof (zlen_confs w) as LC.
    destruct (route_lookup_longest_prefix (w_lb w) (w_confs w) (w_routes w) g NE FC) as (j & nh & E2 & R2 & _); [rewrite LC; assumption|assumption|]. rewrite E2. lia.
  - destruct (if_for_local_ip w a) as [j ok] eqn:E. destruct ok; [|discriminate]. intros Q. injection Q as <-. eapply find_if_range. exact E.
Qed.
Lemma SI_mopt rx t a b c d e : SI rx t -> byte a -> 0 <= d < 256 -> byte e -> SI rx (set_mopt a b c d e t).
Proof.
  intros S A D E. eapply SI_addr; [exact S|reflexivity|reflexivity|reflexivity|reflexivity|]. destruct S as (_ & _ & _ & _ & _ & (R1 & R2 & R3 & R4 & R5 & R6 & R7 & R8)).
  unfold ranges. cbn [set_mopt s_local s_remote s_bound s_src s_dst s_mttl s_tos s_mif]. repeat (split; [assumption|]). assumption.
Qed.
Lemma slot_mopt k t a b c d e : slot_ok k t -> byte a -> 0 <= d < 256 -> byte e -> slot_ok k (set_mopt a b c d e t).
Proof. intros S A D E. destruct k; cbn [slot_ok] in *; [exact I| |]; apply SI_mopt; assumption. Qed.
Lemma byte_of v : (v <? 0) || (255 <? v) = false -> byte v.
Proof. unfold byte. lia. Qed.
Lemma u8_range v : 0 <= u8 v < 256.
Proof. unfold u8. apply Z.mod_pos_bound. lia. Qed.
(** setsockopt: either a join or leave, or only option fields of one slot change. *)
Lemma byte_range v : (v <? 0) || (255 <? v) = false -> 0 <= v <= 255.
Proof. intros H. apply orb_false_iff in H as [H1 H2]. apply Z.ltb_ge in H1, H2. lia. Qed.
Lemma if_local_conf w x i : uworld_ok w -> x <> 0 -> if_for_local_ip w x = (i, true) -> u8 i = i /\ exists cf, conf_of w i cf /\ c_ip cf = x.
Proof.
  intros HW X0 H. pose proof (find_if_range w x i H) as RI. assert (L : zlen (w_ifs w) <= 256) by apply HW. split; [unfold u8; apply Z.mod_small; lia|].
  unfold if_for_local_ip in H. destruct (zlen (w_confs w) =? 0); [discriminate|]. destruct (Z.eqb_spec x 0); [contradiction|].
  destruct (find_if_spec x (w_confs w) 0) as [(j & E & R & c & N & C)|(E & _)]; rewrite E in H; [|discriminate]. injection H as ->. rewrite Z.sub_0_r in N.
  exists c. split; [|assumption]. split; [lia|]. split; [exact N|congruence].
Qed.
Lemma setsockopt_spec w st fd s : uworld_ok w -> Good st -> (match s with SJoin g a | SLeave g a => addr32 g /\ addr32 a | SMcIf a => addr32 a | _ => True end) ->
  exists st' r e, setsockopt w st fd s = Some (st', RZ r, e) /\ Good st' /\
   ((st' = st /\ e = []) \/
    (exists k i t a b c d tos, (opt_sets w s t a b c d tos /\ designates st fd k i) /\ e = [] /\ 0 <= i < zlen (socks st k) /\ sock_at (socks st k) i = t /\ st' = set_socks st k (upd (socks st k) i (set_mopt a b c d tos t))) \/
    (exists n g ifaddr ifx, s = SJoin g ifaddr /\ designates st fd FUdp n /\ 0 <= n < 2 /\ multicast g /\ 0 <= ifx < zlen (w_ifs w) /\ mcast_if_from_addr w ifaddr g = Some ifx /\ joins w st n g ifx st' e /\ r = 0) \/
    (exists n g ifaddr ifx sl, s = SLeave g ifaddr /\ designates st fd FUdp n /\ 0 <= n < 2 /\ multicast g /\ 0 <= ifx < zlen (w_ifs w) /\ mcast_if_from_addr w ifaddr g = Some ifx /\ leaves w st n g ifx sl st' e /\ r = 0)).
Proof.
  intros HW G HS. unfold setsockopt. destruct (decode_spec st fd) as [(e & -> & _)|(k & i & -> & DD & R)]; [eexists _, _, _; split; [reflexivity|]; split; [assumption|left; auto]|].
  pose proof DD as (_ & _ & D & _). assert (Hi : 0 <= i < zlen (socks st k)) by lia. set (t := sock_at (socks st k) i). pose proof (slot_at st k i G Hi) as S. fold t in S.
  assert (SAME : forall r, exists st' r' e, Some (st, RZ r, @nil uev) = Some (st', RZ r', e) /\ Good st' /\ ((st' = st /\ e = []) \/
    (exists k i t a b c d tos, (opt_sets w s t a b c d tos /\ designates st fd k i) /\ e = [] /\ 0 <= i < zlen (socks st k) /\ sock_at (socks st k) i = t /\ st' = set_socks st k (upd (socks st k) i (set_mopt a b c d tos t))) \/
    (exists n g ifaddr ifx, s = SJoin g ifaddr /\ designates st fd FUdp n /\ 0 <= n < 2 /\ multicast g /\ 0 <= ifx < zlen (w_ifs w) /\ mcast_if_from_addr w ifaddr g = Some ifx /\ joins w st n g ifx st' e /\ r' = 0) \/
    (exists n g ifaddr ifx sl, s = SLeave g ifaddr /\ designates st fd FUdp n /\ 0 <= n < 2 /\ multicast g /\ 0 <= ifx < zlen (w_ifs w) /\ mcast_if_from_addr w ifaddr g = Some ifx /\ leaves w st n g ifx sl st' e /\ r' = 0))).
  { intros r. exists st, r, []. split; [reflexivity|]. split; [assumption|]. left. auto. }
  assert (OPT : forall a b c d e, opt_sets w s t a b c d e -> slot_ok k (set_mopt a b c d e t) -> exists st' r' ev, Some (set_socks st k (upd (socks st k) i (set_mopt a b c d e t)), RZ 0, @nil uev) = Some (st', RZ r', ev) /\ Good st' /\ ((st' = st /\ ev = []) \/
    (exists k i t a b c d tos, (opt_sets w s t a b c d tos /\ designates st fd k i) /\ ev = [] /\ 0 <= i < zlen (socks st k) /\ sock_at (socks st k) i = t /\ st' = set_socks st k (upd (socks st k) i (set_mopt a b c d tos t))) \/
    (exists n g ifaddr ifx, s = SJoin g ifaddr /\ designates st fd FUdp n /\ 0 <= n < 2 /\ multicast g /\ 0 <= ifx < zlen (w_ifs w) /\ mcast_if_from_addr w ifaddr g = Some ifx /\ joins w st n g ifx st' ev /\ r' = 0) \/
    (exists n g ifaddr ifx sl, s = SLeave g ifaddr /\ designates st fd FUdp n /\ 0 <= n < 2 /\ multicast g /\ 0 <= ifx < zlen (w_ifs w) /\ mcast_if_from_addr w ifaddr g = Some ifx /\ leaves w st n g ifx sl st' ev /\ r' = 0))).
  { intros a b c d e OS SO. eexists _, _, _. split; [reflexivity|]. split; [apply socks_put; [assumption|destruct k; exact SO]|]. right. left. exists k, i, t, a, b, c, d, e. auto 10. }
  destruct s as [g a|g a|a|v|v|v].
  - destruct HS as (HA & HB). destruct (is_marked fd MARK_UDP); [|destruct k; apply SAME]. destruct k; try apply SAME. cbn [socks] in *.
    destruct (mcast_if_from_addr w a g) as [ifx|] eqn:EI; [|apply SAME]. pose proof (mcast_if_range w a g ifx HW HA EI) as RI. assert (Hn : 0 <= i < 2) by (destruct G as (_ & G2 & _); lia).
    destruct (join_spec w st i g ifx HW G Hn HA ltac:(lia)) as (st' & r & e & -> & C & _). cbn [obind]. exists st', r, e. split; [reflexivity|].
    destruct C as [(C1 & -> & ->)|(-> & MG & _ & J)]; [split; [assumption|left; auto]|]. split; [exact (joins_good w st i g ifx st' e HW G Hn HA RI J)|]. right. right. left. exists i, g, a, ifx. auto 10.
  - destruct HS as (HA & HB). destruct (is_marked fd MARK_UDP); [|destruct k; apply SAME]. destruct k; try apply SAME. cbn [socks] in *.
    destruct (mcast_if_from_addr w a g) as [ifx|] eqn:EI; [|apply SAME]. pose proof (mcast_if_range w a g ifx HW HA EI) as RI. assert (Hn : 0 <= i < 2) by (destruct G as (_ & G2 & _); lia).
    destruct (drop_spec w st i g ifx HW G Hn HA ltac:(lia)) as (st' & r & e & -> & C). cbn [obind]. exists st', r, e. split; [reflexivity|].
    destruct C as [(C1 & -> & -> & _)|(-> & MG & _ & sl & J)]; [split; [assumption|left; auto]|]. split; [exact (leaves_good w st i g ifx sl st' e G Hn HA J)|]. right. right. right. exists i, g, a, ifx, sl. auto 10.
  - destruct (is_marked fd MARK_UDP); [|destruct k; apply SAME]. destruct k; try apply SAME. cbn [socks] in *. cbn [slot_ok] in S. pose proof S as (_ & _ & _ & _ & _ & (R1 & R2 & R3 & R4 & R5 & R6 & R7 & R8)).
    destruct (Z.eqb_spec a 0) as [A0|A0]; [apply OPT; [cbn; auto 10|apply SI_mopt; try assumption; lia]|]. destruct (mcast_if_from_addr w a 3758096385) as [ii|] eqn:EI; [|apply SAME]. apply OPT; [|apply SI_mopt; try assumption; apply u8_range].
    unfold mcast_if_from_addr in EI. cbn [ip_is_multicast negb] in EI. destruct (negb (ip_is_multicast 3758096385)); [discriminate|]. destruct (Z.eqb_spec a 0); [contradiction|]. destruct (if_for_local_ip w a) as [i2 ok] eqn:EL. destruct ok; [|discriminate]. injection EI as ->.
    destruct (if_local_conf w a ii HW A0 EL) as (U & CF). cbn [opt_sets]. rewrite U. repeat (split; [reflexivity|]). right. auto.
  - destruct (is_marked fd MARK_UDP); [|destruct k; apply SAME]. destruct k; try apply SAME. cbn [socks] in *. cbn [slot_ok] in S. pose proof S as (_ & _ & _ & _ & _ & (R1 & R2 & R3 & R4 & R5 & R6 & R7 & R8)).
    destruct ((v <? 0) || (255 <? v)) eqn:EV; [apply SAME|]. apply OPT; [pose proof (byte_range _ EV); cbn; auto 10|apply SI_mopt; try assumption; apply byte_of; assumption].
  - destruct (is_marked fd MARK_UDP); [|destruct k; apply SAME]. destruct k; try apply SAME. cbn [socks] in *. cbn [slot_ok] in S. pose proof S as (_ & _ & _ & _ & _ & (R1 & R2 & R3 & R4 & R5 & R6 & R7 & R8)).
    apply OPT; [cbn; auto 10|apply SI_mopt; assumption].
  - destruct ((v <? 0) || (255 <? v)) eqn:EV.
    + destruct (is_marked fd MARK_UDP), k; apply SAME.
    + assert (SO : slot_ok k (set_mopt (s_mttl t) (s_mloop t) (s_mifset t) (s_mif t) v t)).
      { pose proof (byte_range _ EV). apply byte_of in EV. destruct k; cbn [slot_ok] in *; [exact I| |]; pose proof S as (_ & _ & _ & _ & _ & (R1 & R2 & R3 & R4 & R5 & R6 & R7 & R8)); apply SI_mopt; assumption. }
      assert (OS : opt_sets w (STos v) t (s_mttl t) (s_mloop t) (s_mifset t) (s_mif t) v) by (pose proof (byte_range _ EV); cbn; auto 10). destruct (is_marked fd MARK_UDP), k; (apply OPT; [exact OS|exact SO]).
Qed.
