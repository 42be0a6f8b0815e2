(** C79: histories of a host's association tables; nothing leaves in clear. *)
From Verif Require Import Base Checksum ChecksumProps Arp Forward ForwardSpec ForwardProofs ForwardStep EspReplay EspReplayProps ReplaySpec Esp EspSpec EspWire EspProofs EspTrip EspProps EspAuth EspOnce EspNonce.

(** What a host does with its associations: creating one (with what the state
    callback returns), deleting one or all, receiving a frame, sending a datagram.
    [inb]: in the inbound table. *)
Inductive eop :=
| ENew (inb : bool) (spi : list Z) (src dst : Z) (n : newsa) (cb : option saved)
| EDel (inb : bool) (spi : list Z)
| EDelAll (inb : bool)
| ERecv (f : list Z)
| ESend (rng : option (list Z)) (ip : list Z).
Definition on (inb : bool) (g : list sa -> list sa) (st : list sa * list sa) : list sa * list sa :=
  if inb then (g (fst st), snd st) else (fst st, g (snd st)).
Definition estep (c : crypto) (st : list sa * list sa) (o : eop) : option (list sa * list sa) :=
  match o with
  | ENew i spi src dst n cb => Some (on i (fun l => fst (sa_new l spi src dst n cb)) st)
  | EDel i spi => Some (on i (fun l => sa_del l spi) st)
  | EDelAll i => Some (on i sa_del_all st)
  | ERecv f => do (ins, _) <- esp_in c false (fst st) f; Some (ins, snd st)
  | ESend rng ip => do (outs, _) <- esp_wrap c rng (snd st) ip; Some (fst st, outs)
  end.
Fixpoint erun (c : crypto) (st : list sa * list sa) (os : list eop) : option (list sa * list sa) :=
  match os with [] => Some st | o :: os => do st <- estep c st o; erun c st os end.

(** Inputs the C types allow: an SPI is 4 bytes, saved numbers are 32-bit, a DES3
    key has 24 bytes; a received frame is a well-formed one of at most an MTU; a
    datagram sent fits a frame. *)
Definition saved_ok (cb : option saved) : Prop :=
  match cb with Some v => 0 <= s_hi v < 4294967296 /\ 0 <= s_oseq v < 4294967296 | None => True end.
Definition newsa_ok (n : newsa) : Prop :=
  match n with NGcm _ _ rng => rng_ok rng | NDes3 k _ _ _ => 24 <= zlen k | _ => True end.
Definition eop_ok (o : eop) : Prop :=
  match o with
  | ENew _ spi _ _ n cb => zlen spi = 4 /\ newsa_ok n /\ saved_ok cb
  | ERecv f => frame_ok f
  | ESend rng ip => rng_ok rng /\ zlen ip <= 1522
  | _ => True
  end.

Lemma check_total r q : 0 <= r_hi r < 4294967296 -> 0 <= q -> exists b, esp_replay_check r q = Some b.
Proof.
  intros R Q. unfold esp_replay_check. destruct (q =? 0); [eauto|]. unfold ESP_REPLAY_WIN.
  set (low := if 64 - 1 <=? r_hi r then u32 (r_hi r - (64 - 1)) else 1).
  assert (LW : low = Z.max 1 (r_hi r - 63) \/ low = r_hi r - 63).
  { unfold low. destruct (Z.leb_spec (64 - 1) (r_hi r)); [right; unfold u32; lia|left; lia]. }
  destruct (Z.ltb_spec q low); [eauto|]. destruct (Z.leb_spec q (r_hi r)); [|eauto].
  unfold shl1_u64. replace (u32 (r_hi r - q) <? 64) with true by (unfold u32; lia). cbn [obind]. eauto.
Qed.
Lemma after_ok s q : sa_ok s -> 0 <= q < 4294967296 -> sa_ok (after s q).
Proof.
  intros OK Q. unfold after. destruct (sa_icv s =? 0); [exact OK|]. destruct (esp_replay_commit (sa_rep s) q) as [r|] eqn:E; [|exact OK].
  destruct OK as (O1 & O2 & O3 & O4 & O5 & O6). unfold sa_ok. cbn [sa_spi sa_preiv sa_rep sa_enc sa_auth sa_icv sa_ekey with_rep].
  split; [assumption|]. split; [assumption|]. split; [assumption|]. unfold esp_replay_commit in E. destruct (q <=? r_hi (sa_rep s)).
  - destruct (shl1_u64 _); [|discriminate]. cbn [obind] in E. injection E as <-. cbn [r_hi r_oseq]. auto.
  - injection E as <-. cbn [r_hi r_oseq]. auto.
Qed.
Lemma unwrap_total c ip esp s : 20 <= zlen ip -> ihl_bytes (zget ip 0) = 20 -> sa_ok s -> 0 <= pkt_seq esp < 4294967296 ->
  exists s' r, unwrap_sa c ip esp s = Some (s', r) /\ sa_ok s'.
Proof.
  intros L20 V OK RQ. unfold unwrap_sa. fold (pkt_seq esp). pose proof OK as (_ & _ & _ & RH & _).
  assert (X : exists b, (if sa_icv s =? 0 then Some true else esp_replay_check (sa_rep s) (pkt_seq esp)) = Some b).
  { destruct (sa_icv s =? 0); [eauto|]. apply check_total; lia. }
  destruct X as (b & EB). rewrite EB. cbn [obind]. destruct b; cbn [negb]; [|eauto].
  destruct (zlen esp <? 8 + iv_len (sa_enc s) + 2 + sa_icv s); [eauto|]. destruct (open_ c s esp) as [pt|]; [|eauto].
  assert (Y : exists s1, (if sa_icv s =? 0 then Some s else do r <- esp_replay_commit (sa_rep s) (pkt_seq esp); Some (with_rep s r)) = Some s1 /\ sa_ok s1).
  { pose proof (after_ok s (pkt_seq esp) OK RQ) as AO. unfold after in AO. destruct (sa_icv s =? 0); [eauto|].
    destruct (check_commit _ _ EB) as (r & ER). rewrite ER in *. cbn [obind]. eauto. }
  destruct Y as (s1 & EY & OK1). rewrite EY. cbn [obind]. destruct (trailer pt) as [[pl nh]|]; [|eauto].
  destruct (hdr_ex ip L20) as (F & v & l0 & l1 & p & c0 & c1 & rr & ->). rewrite hdr_firstn, hdr_put2. cbn [obind]. rewrite hdr_put9. cbn [obind].
  rewrite zget_hdr0 in V. rewrite hdr_ck20 by (unfold hlen; rewrite V; reflexivity). cbn [obind]. eauto.
Qed.
Lemma with_first_total {R} (p : sa -> bool) (f : sa -> option (sa * R)) (P : sa -> Prop) l :
  (forall s, In s l -> p s = true -> exists s' r, f s = Some (s', r)) -> exists l' r, with_first p f l = Some (l', r).
Proof.
  intros H. induction l as [|x l IH]; cbn [with_first]; [eauto|]. destruct (p x) eqn:E.
  - destruct (H x (or_introl eq_refl) E) as (s' & r & ->). cbn [obind]. eauto.
  - destruct IH as (l' & r & ->); [intros s Hs; apply H; right; exact Hs|]. cbn [obind]. eauto.
Qed.
Lemma table_replace l1 s l2 t : table_ok (l1 ++ s :: l2) -> sa_ok t -> table_ok (l1 ++ t :: l2).
Proof.
  intros TO OK x Hx. apply in_app_iff in Hx. destruct Hx as [Hx|[<- |Hx]]; [|auto|].
  - apply TO. apply in_app_iff. auto.
  - apply TO. apply in_app_iff. right. right. exact Hx.
Qed.
Lemma in_total c ins f : crypto_ok c -> frame_ok f -> table_ok ins -> exists ins' r, esp_in c false ins f = Some (ins', r) /\ table_ok ins'.
Proof.
  intros LC (HB & WF & MTU) TO. destruct (strip_spec f HB WF) as (h & ES & D).
  pose proof D as (DL & D14 & DT & _ & DP & _). pose proof WF as (W1 & _ & W3 & W4 & _).
  set (d := skipn 14 h). assert (LD : zlen d = zlen h - 14) by (unfold d, zlen in *; rewrite skipn_length; lia).
  assert (V0 : zget d 0 = 69).
  { unfold d. rewrite <- D14. unfold zget. clear. generalize h. intros l. do 14 (destruct l as [|? l]; [reflexivity|]). destruct l; reflexivity. }
  assert (RQ : 0 <= pkt_seq (esp_part d) < 4294967296).
  { unfold pkt_seq. apply rd32_bytes. unfold esp_part. apply Forall_firstn. unfold d. rewrite skipn_skipn. change (20 + 14)%nat with 34%nat.
    unfold part in DP. change (Z.to_nat 34) with 34%nat in DP.
    rewrite firstn_all2 in DP by (rewrite skipn_length; unfold zlen in *; lia). rewrite DP. apply Forall_firstn, Forall_skipn. exact HB. }
  assert (IT : exists ins' r, esp_in c false ins f = Some (ins', r)).
  { unfold esp_in. replace (1536 <? zlen f) with false by lia. rewrite andb_false_r, ES. cbn [obind].
    destruct (negb (zget h 23 =? 50)); [eauto|]. fold d. unfold esp_unwrap.
    destruct (Z.ltb_spec (zlen d) 4); [lia|].
    destruct (Z.ltb_spec (rd16 d 2) 20); cbn [orb obind]; [eauto|].
    destruct (Z.ltb_spec (zlen d) (rd16 d 2)); cbn [obind]; [eauto|].
    destruct (Z.ltb_spec (rd16 d 2 - 20) 8); cbn [obind]; [eauto|].
    assert (EM : mread d 20 (rd16 d 2 - 20) = Some (esp_part d)).
    { unfold mread. replace ((0 <=? 20) && (0 <=? rd16 d 2 - 20) && (20 + (rd16 d 2 - 20) <=? zlen d)) with true by lia. reflexivity. }
    rewrite EM. cbn [obind]. destruct (negb (spi_valid (firstn 4 (esp_part d)))); cbn [obind]; [eauto|].
    destruct (with_first_total (in_match (firstn 4 (esp_part d)) (rd32 d 12) (rd32 d 16)) (unwrap_sa c d (esp_part d)) sa_ok ins) as (l' & r & E).
    - intros s Hs M. apply in_match_iff in M. destruct M as (_ & M).
      destruct (TO s Hs) as [-> |OK]; [exfalso; exact (free_not_covers _ _ M)|].
      destruct (unwrap_total c d (esp_part d) s) as (s' & r & E & _); [lia|rewrite V0; reflexivity|exact OK|exact RQ|eauto].
    - rewrite E. cbn [obind]. eauto. }
  destruct IT as (ins' & r & E). exists ins', r. split; [exact E|].
  destruct (esp_accepts_only_authentic c ins f ins' r LC HB WF MTU TO E) as (h' & ES' & _ & HP). cbv zeta in HP.
  assert (h' = h) as -> by congruence. fold d in HP. destruct HP as (HP1 & HP2).
  destruct (Z.eq_dec (proto h) 50) as [P|P]; [|destruct (HP1 P) as (_ & ->); exact TO].
  destruct (HP2 P) as [(_ & ->)|(l1 & s & l2 & pt & -> & (_ & HC & _) & _ & _ & -> & _)]; [exact TO|].
  apply table_replace with (s := s); [exact TO|]. apply after_ok; [|exact RQ].
  destruct (TO s) as [-> |OK]; [apply in_app_iff; right; left; reflexivity|exfalso; exact (free_not_covers _ _ HC)|exact OK].
Qed.
Lemma wrap_sa_total c rng ip s : crypto_ok c -> rng_ok rng -> sa_ok s -> zlen ip <= 1522 -> 20 <= ihl_bytes (zget ip 0) <= zlen ip ->
  exists s' r, wrap_sa c rng ip s = Some (s', r).
Proof.
  intros LC RN OK ML HL. assert (L20 : 20 <= zlen ip) by lia.
  destruct (hdr_ex ip L20) as (F & v & l0 & l1 & p & c0 & c1 & r & ->). rewrite zget_hdr0 in *. rewrite hdr_zlen in *.
  set (n := ihl_bytes v - 20) in *. set (opts := firstn (Z.to_nat n) r). set (pl := skipn (Z.to_nat n) r).
  assert (ER : r = opts ++ pl) by (symmetry; apply firstn_skipn). assert (LO : zlen opts = n) by (apply zlen_firstn; lia).
  rewrite ER in ML, HL |- *. assert (HV : ihl_bytes v = 20 + zlen opts) by lia. unfold wrap_sa. rewrite zget_hdr0, HV.
  rewrite skipn_hdr by reflexivity. rewrite firstn_hdr by reflexivity.
  pose proof (iv_len_range (sa_enc s)). pose proof (sa_icv_range s OK). pose proof (pad_for_range (sa_enc s) (zlen pl) (zlen_nonneg pl)).
  pose proof (zlen_nonneg opts) as NO. pose proof (zlen_nonneg pl) as NP.
  rewrite !hdr_zlen. unfold esp_room.
  destruct (Z.ltb_spec (1536 + 60 - 14) (20 + zlen (opts ++ pl) + 8 + iv_len (sa_enc s))); [lia|].
  destruct (esp_next_oseq (sa_rep s)) as [rp [q|]]; [|eauto].
  change (sa_enc (with_rep s rp)) with (sa_enc s). change (sa_icv (with_rep s rp)) with (sa_icv s).
  destruct (Z.ltb_spec (1536 + 60 - 14) (20 + zlen (opts ++ pl) + 8 + iv_len (sa_enc s) + pad_for (sa_enc s) (zlen pl) + 2 + sa_icv s)); [lia|].
  destruct (seal c rng (with_rep s rp) q _) as [esp|]; [|eauto]. pose proof (zlen_nonneg esp).
  rewrite <- app_assoc. rewrite hdr_put2. cbn [obind]. rewrite hdr_put9. cbn [obind].
  rewrite hdr_ck; [cbn [obind]; eauto|]. rewrite zlen_app. unfold hlen. rewrite HV. destruct (Z.ltb_spec (20 + zlen opts) 20); lia.
Qed.
Lemma wrap_total c rng outs ip : crypto_ok c -> rng_ok rng -> table_ok outs -> zlen ip <= 1522 -> exists outs' r, esp_wrap c rng outs ip = Some (outs', r).
Proof.
  intros LC RN TO ML. unfold esp_wrap, esp_room. destruct (Z.ltb_spec (1536 + 60 - 14) (zlen ip)); [lia|].
  destruct ((ihl_bytes (zget ip 0) <? 20) || (zlen ip <? ihl_bytes (zget ip 0))) eqn:EB; [eauto|].
  destruct (with_first_total (out_match (rd32 ip 12) (rd32 ip 16)) (wrap_sa c rng ip) sa_ok outs) as (l' & r & E).
  - intros s Hs M. apply out_match_iff in M. destruct (TO s Hs) as [-> |OK]; [exfalso; exact (free_not_covers _ _ M)|].
    apply wrap_sa_total; auto. lia.
  - rewrite E. cbn [obind]. eauto.
Qed.

Lemma hmac_ok_some a k icv : hmac_auth_ok a (Some k) icv = true -> is_hmac a = true /\ (icv = 12 \/ icv = 16).
Proof. unfold hmac_auth_ok. destruct a; cbn [is_hmac]; intros H; try discriminate; split; try reflexivity; lia. Qed.
Lemma hmac_ok_opt a k icv : hmac_auth_ok a k icv = true -> (is_hmac a = true /\ (icv = 12 \/ icv = 16)) \/ (a = ANone /\ icv = 0).
Proof.
  destruct k as [k|]; intros H; [left; eapply hmac_ok_some; exact H|right]. unfold hmac_auth_ok in H. destruct a; try discriminate. split; [reflexivity|lia].
Qed.
Lemma make_ok spi src dst n cb s : zlen spi = 4 -> spi <> [0; 0; 0; 0] -> newsa_ok n -> saved_ok cb -> make_sa spi src dst n = Some s ->
  sa_ok (with_rep s (esp_state_restore (sa_rep s) cb)).
Proof.
  intros L4 NZ NO SO H.
  assert (RR : forall r, r = esp_replay_init -> 0 <= r_hi (esp_state_restore r cb) < 4294967296 /\ 0 <= r_oseq (esp_state_restore r cb) < 4294967296).
  { intros r ->. destruct cb as [v|]; cbn [esp_state_restore r_hi r_oseq]; [exact SO|]. vm_compute. intuition discriminate. }
  destruct n as [e k rng|a ak icv|k a ak icv|k a ak icv]; cbn [make_sa] in H.
  - destruct ((zlen k =? 20) || (zlen k =? 28) || (zlen k =? 36)) eqn:EK; [|discriminate]. cbn [negb] in H.
    destruct e; try discriminate; (destruct rng as [iv|]; [|discriminate]); injection H as <-; cbn [newsa_ok rng_ok] in NO;
    unfold sa_ok; cbn [sa_spi sa_preiv sa_rep sa_enc sa_auth sa_icv sa_ekey with_rep]; destruct (RR _ eq_refl) as (R1 & R2);
    (split; [exact L4|]; split; [exact NZ|]; split; [change (zlen (firstn 8 iv) = 8); unfold zlen in *; rewrite firstn_length; lia|]; split; [exact R1|]; split; [exact R2|];
     split; [reflexivity|]; split; [reflexivity|]; cbn [In]; lia).
  - destruct (hmac_auth_ok a (Some ak) icv) eqn:EH; [|discriminate]. injection H as <-. apply hmac_ok_some in EH. destruct (RR _ eq_refl) as (R1 & R2).
    unfold sa_ok, hmac_part. cbn [sa_spi sa_preiv sa_rep sa_enc sa_auth sa_icv sa_ekey with_rep]. auto 10.
  - destruct ((zlen k =? 16) || (zlen k =? 24) || (zlen k =? 32)); [|discriminate]. cbn [negb] in H.
    destruct (hmac_auth_ok a ak icv) eqn:EH; [|discriminate]. injection H as <-. apply hmac_ok_opt in EH. destruct (RR _ eq_refl) as (R1 & R2).
    unfold sa_ok, hmac_part. cbn [sa_spi sa_preiv sa_rep sa_enc sa_auth sa_icv sa_ekey with_rep]. auto 10.
  - destruct (hmac_auth_ok a ak icv) eqn:EH; [|discriminate]. injection H as <-. apply hmac_ok_opt in EH. destruct (RR _ eq_refl) as (R1 & R2).
    cbn [newsa_ok] in NO. unfold sa_ok, hmac_part. cbn [sa_spi sa_preiv sa_rep sa_enc sa_auth sa_icv sa_ekey with_rep].
    assert (zlen (firstn 24 k) = 24) by (unfold zlen in *; rewrite firstn_length; lia). auto 12.
Qed.
Lemma put_free_in s l l' : put_free s l = Some l' -> forall x, In x l' -> x = s \/ In x l.
Proof.
  revert l'. induction l as [|y l IH]; intros l' H x Hx; cbn [put_free] in H; [discriminate|].
  destruct (negb (spi_valid (sa_spi y))).
  - injection H as <-. destruct Hx as [<- |Hx]; [auto|right; right; exact Hx].
  - destruct (put_free s l) as [l0|] eqn:E; [|discriminate]. cbn [obind] in H. injection H as <-. destruct Hx as [<- |Hx]; [right; left; reflexivity|].
    destruct (IH l0 eq_refl x Hx); [auto|right; right; assumption].
Qed.
Lemma new_ok l spi src dst n cb : zlen spi = 4 -> newsa_ok n -> saved_ok cb -> table_ok l -> table_ok (fst (sa_new l spi src dst n cb)).
Proof.
  intros L4 NO SO TO. unfold sa_new. destruct (spi_valid spi) eqn:ES; [|exact TO]. cbn [negb]. destruct (has_free l); [|exact TO]. cbn [negb].
  destruct (make_sa spi src dst n) as [s|] eqn:EM; [|exact TO]. destruct (put_free _ l) as [l'|] eqn:EP; [|exact TO].
  cbn [fst]. intros x Hx. destruct (put_free_in _ _ _ EP x Hx) as [-> |Hin]; [right|apply TO; exact Hin].
  eapply make_ok; eauto. apply spi_valid_iff. exact ES.
Qed.
Lemma del_ok l spi : table_ok l -> table_ok (sa_del l spi).
Proof.
  intros TO. induction l as [|x l IH]; cbn [sa_del]; [exact TO|]. destruct (leqb (sa_spi x) spi); intros y [<- |Hy].
  - left. reflexivity.
  - apply TO. right. exact Hy.
  - apply TO. left. reflexivity.
  - apply IH; [|exact Hy]. intros z Hz. apply TO. right. exact Hz.
Qed.
Lemma del_all_ok l : table_ok (sa_del_all l).
Proof. intros x Hx. unfold sa_del_all in Hx. apply in_map_iff in Hx. destruct Hx as (y & <- & _). left. reflexivity. Qed.

(** C79, safety.  From empty tables of any sizes, whatever associations are
    created and deleted, whatever saved state they start from, and whatever
    well-formed frames arrive and datagrams are sent, no step is undefined (in
    particular nothing is written past the transmit buffer), and every association
    in use has a non-zero SPI, a known suite, an ICV of the suite's length and
    keys of the suite's length. *)
Theorem esp_tables_sound : forall c n m os, crypto_ok c -> Forall eop_ok os ->
  exists ins outs, erun c (repeat sa_free n, repeat sa_free m) os = Some (ins, outs) /\ table_ok ins /\ table_ok outs.
Proof.
  intros c n m os LC HO.
  assert (G : forall os st, Forall eop_ok os -> table_ok (fst st) -> table_ok (snd st) ->
    exists ins outs, erun c st os = Some (ins, outs) /\ table_ok ins /\ table_ok outs).
  { clear os HO. induction os as [|o os IH]; intros [ins outs] HO TI TU; cbn [erun fst snd] in *; [eauto|].
    inversion HO as [|? ? Ho HO']; subst.
    assert (S1 : exists st, estep c (ins, outs) o = Some st /\ table_ok (fst st) /\ table_ok (snd st)).
    { destruct o as [i spi src dst nw cb|i spi|i|f|rng ip]; cbn [estep eop_ok fst snd] in *.
      - destruct Ho as (H1 & H2 & H3). eexists. split; [reflexivity|]. destruct i; cbn [on fst snd]; split; auto; apply new_ok; auto.
      - eexists. split; [reflexivity|]. destruct i; cbn [on fst snd]; split; auto; apply del_ok; auto.
      - eexists. split; [reflexivity|]. destruct i; cbn [on fst snd]; split; auto; apply del_all_ok.
      - destruct (in_total c ins f LC Ho TI) as (ins' & r & E & TI'). rewrite E. cbn [obind]. eauto.
      - destruct Ho as (RN & ML). destruct (wrap_total c rng outs ip LC RN TU ML) as (outs' & r & E). rewrite E. cbn [obind].
        eexists. split; [reflexivity|]. cbn [fst snd]. split; [exact TI|]. eapply wrap_table; eauto. }
    destruct S1 as (st & E & T1 & T2). rewrite E. cbn [obind]. apply IH; assumption. }
  apply G; [exact HO| |]; cbn [fst snd]; intros x Hx; apply repeat_spec in Hx; left; exact Hx.
Qed.
Print Assumptions esp_tables_sound.

(** C79, policy.  What an Ethernet device is given for a datagram: the datagram
    itself only if no outbound association covers its addresses; otherwise,
    nothing at all, or an ESP packet (same addresses and options, protocol 50, the
    association's SPI) which is authentic under that association and whose
    plaintext is exactly the datagram's payload and protocol. *)
Theorem esp_never_clear : forall c rng outs eth ip outs' o, crypto_ok c -> rng_ok rng -> table_ok outs -> datagram ip ->
  esp_out c rng false outs eth ip = Some (outs', o) ->
  ((forall x, In x outs -> ~ covers x (src_of ip) (dst_of ip)) /\ o = Some (eth ++ ip)) \/
  o = None \/
  exists l1 s l2 w pt, outs = l1 ++ s :: l2 /\ chosen any_spi l1 s (src_of ip) (dst_of ip) /\ o = Some (eth ++ w) /\
    zget w 9 = 50 /\ src_of w = src_of ip /\ dst_of w = dst_of ip /\ rd16 w 2 = zlen w /\ ihl_bytes (zget w 0) = ihl_bytes (zget ip 0) /\
    pkt_spi (sent_pkt w) = sa_spi s /\ authentic c s (sent_pkt w) pt /\
    unpadded pt (skipn (Z.to_nat (ihl_bytes (zget ip 0))) ip) (zget ip 9).
Proof.
  intros c rng outs eth ip outs' o LC RN TO (D1 & D2 & D3 & D4) H. unfold esp_out in H.
  destruct (esp_wrap c rng outs ip) as [[o1 r]|] eqn:EW; [|discriminate]. cbn [obind] in H. injection H as <- <-.
  destruct (wrap_step _ _ _ _ _ _ TO LC RN EW) as (_ & HR). destruct r as [w| |]; [|auto|auto].
  right. right. destruct HR as (l1 & s & l2 & t & -> & -> & HC & OK & HI & HW). clear EW.
  destruct (wrap_wire _ _ _ _ _ _ LC RN OK HI HW) as (A1 & A2 & A3 & A4 & A5 & _ & _ & RO & A8 & _ & _).
  assert (L20 : 20 <= zlen ip) by lia.
  destruct (hdr_ex ip L20) as (F & v & l0 & m1 & p & c0 & c1 & r & EIP). rewrite EIP in HW, A1, HI |- *. rewrite zget_hdr0 in *. rewrite hdr_zlen in HI.
  set (n := ihl_bytes v - 20) in *. set (opts := firstn (Z.to_nat n) r) in *. set (pl := skipn (Z.to_nat n) r) in *.
  assert (ER : r = opts ++ pl) by (symmetry; apply firstn_skipn). assert (LO : zlen opts = n) by (apply zlen_firstn; lia).
  rewrite ER in HW |- *. assert (HV : ihl_bytes v = 20 + zlen opts) by lia.
  destruct (wrap_sa_inv c rng F v l0 m1 p c0 c1 opts pl s t w LC RN OK HV HW) as (q & pad & esp & HQ & ES' & EP & ES & BD & EQW). cbv zeta in EQW.
  pose proof (wrap_sa_evolves _ _ _ _ _ _ OK HW) as (OK' & (SS & _ & _) & _). specialize (OK' OK).
  assert (SS' : same_suite t s) by (clear - SS; unfold same_suite in *; intuition congruence).
  destruct (open_seal c rng t s q _ esp LC RN OK' SS' ES) as (rest & _ & LE & HO).
  assert (SP : sent_pkt w = esp) by (unfold sent_pkt; rewrite EQW, zget_hdr0, HV; apply skipn_hdr; reflexivity).
  exists l1, s, l2, w, (pl ++ padding pad ++ [pad; p]). rewrite EIP, ER in HC. split; [reflexivity|]. split; [exact HC|]. split; [reflexivity|]. split; [exact A2|].
  split; [rewrite A3, EIP, ER; reflexivity|]. split; [rewrite A4, EIP, ER; reflexivity|]. split; [auto|]. split; [exact A1|].
  split; [exact A8|]. rewrite SP. split.
  - apply ok_open; [exact OK| |exact HO]. destruct SS' as (_ & Q2 & _ & _ & _ & Q6). rewrite <- Q2, <- Q6, LE.
    pose proof (pad_for_range (sa_enc s) (zlen pl) (zlen_nonneg pl)). rewrite !zlen_app, padding_len by lia. change (zlen [pad; p]) with 2. pose proof (zlen_nonneg pl). lia.
  - exists (Z.to_nat pad). pose proof (pad_for_range (sa_enc s) (zlen pl) (zlen_nonneg pl)).
    rewrite HV, skipn_hdr by reflexivity. change (zget (hdr F v l0 m1 p c0 c1 ++ opts ++ pl) 9) with p.
    replace (Z.of_nat (Z.to_nat pad)) with pad by lia. reflexivity.
Qed.
Print Assumptions esp_never_clear.
