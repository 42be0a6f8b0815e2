(** A concrete instance of the ESP primitives, showing that the hypotheses of
    C76..C79 are met by running hosts, for all five suites; and the claims of C79
    that fail outside its scope. *)
From Verif Require Import Base Checksum ChecksumProps Arp Forward ForwardSpec ForwardStep EspReplay EspReplayProps ReplaySpec Esp EspSpec EspWire EspProofs EspTrip EspProps EspAuth EspOnce EspNonce EspSafe.

Definition is_bytes (l : list Z) : bool := forallb (fun b => (0 <=? b) && (b <? 256)) l.
Definition flip (p : list Z) : option (list Z) :=
  let x := map (fun b => Z.lxor b 90) p in if is_bytes p && is_bytes x then Some x else None.
Definition tsum (l : list Z) : Z := fold_left (fun a b => (a * 31 + b) mod 4294967296) l 7.
Definition ttag (l : list Z) (n : Z) : option (list Z) :=
  if (0 <=? n) && (n <=? 32) then Some (firstn (Z.to_nat n) (be32 (tsum l) ++ repeat 0 28)) else None.
Definition toy : crypto := mkCrypto
  (fun _ k d => ttag (k ++ d) 20)
  (fun _ k iv p => flip p) (fun _ k iv p => flip p)
  (fun k n p a l => do x <- flip p; do t <- ttag (k ++ n ++ a ++ x) l; Some (x, t))
  (fun k n x a t => do t' <- ttag (k ++ n ++ a ++ x) (zlen t); if leqb t t' then flip x else None)
  (fun k n a l => ttag (k ++ n ++ a) l)
  (fun k n a t => match ttag (k ++ n ++ a) (zlen t) with Some t' => leqb t t' | None => false end).

Lemma flip_spec p x : flip p = Some x -> flip x = Some p /\ zlen x = zlen p /\ Forall byte x.
Proof.
  unfold flip. set (y := map (fun b => Z.lxor b 90) p). destruct (is_bytes p) eqn:E1; [|discriminate]. destruct (is_bytes y) eqn:E2; [|discriminate].
  cbn [andb]. intros H. injection H as <-.
  assert (YY : map (fun b => Z.lxor b 90) y = p).
  { unfold y. rewrite map_map. rewrite <- (map_id p) at 2. apply map_ext. intros a. rewrite Z.lxor_assoc, Z.lxor_nilpotent. apply Z.lxor_0_r. }
  rewrite YY, E1, E2. split; [reflexivity|]. split; [unfold zlen, y; rewrite map_length; reflexivity|].
  unfold is_bytes in E2. rewrite forallb_forall in E2. apply Forall_forall. intros a Ha. specialize (E2 a Ha). unfold byte. lia.
Qed.
Lemma ttag_len l n t : ttag l n = Some t -> zlen t = n /\ 0 <= n <= 32.
Proof.
  unfold ttag. destruct ((0 <=? n) && (n <=? 32)) eqn:E; [|discriminate]. intros H. assert (t = firstn (Z.to_nat n) (be32 (tsum l) ++ repeat 0 28)) as -> by congruence. clear H. split; [|lia].
  unfold zlen. rewrite firstn_length, app_length, repeat_length. change (length (be32 (tsum l))) with 4%nat. lia.
Qed.
Lemma toy_ok : crypto_ok toy.
Proof.
  split; [|split; [|split; [|split]]].
  - intros e k iv p ct H. cbn [toy cbc_enc cbc_dec] in *. destruct (flip_spec _ _ H) as (A & B & _). auto.
  - intros k n p a l ct t H. cbn [toy gcm_enc gcm_dec] in *. destruct (flip p) as [x|] eqn:E; [|discriminate]. cbn [obind] in H.
    destruct (ttag _ l) as [t'|] eqn:T; [|discriminate]. cbn [obind] in H. injection H as <- <-. destruct (flip_spec _ _ E) as (A & B & _).
    destruct (ttag_len _ _ _ T) as (L & _). rewrite L, T. cbn [obind]. rewrite leqb_refl. auto.
  - intros k n a l t H. cbn [toy gmac gmac_ok] in *. destruct (ttag_len _ _ _ H) as (L & _). rewrite L, H, leqb_refl. auto.
  - intros e k iv p ct H. cbn [toy cbc_dec] in *. destruct (flip_spec _ _ H) as (A & B & C). split; [lia|exact C].
  - intros k n p a t ct H. cbn [toy gcm_dec] in *. destruct (ttag _ (zlen t)) as [t'|]; [|discriminate]. cbn [obind] in H.
    destruct (leqb t t'); [|discriminate]. destruct (flip_spec _ _ H) as (A & B & C). split; [lia|exact C].
Qed.

(** Hosts 10.0.0.1 and 10.0.0.2; one association of each suite. *)
Definition t_src : Z := 167772161.
Definition t_dst : Z := 167772162.
Definition t_rng : option (list Z) := Some (map Z.of_nat (seq 100 16)).
Definition t_new : list newsa :=
  [NGcm EGcm4106 (repeat 7 20) t_rng; NGcm EGcm4543 (repeat 8 36) t_rng; NHmac ASha256 (repeat 9 32) 16;
   NCbc (repeat 3 16) ASha1 (Some (repeat 4 20)) 12; NDes3 (repeat 5 24) AMd5 (Some (repeat 6 16)) 12].
Definition t_sa (n : newsa) : sa := match make_sa [1; 2; 3; 4] 0 t_dst n with Some s => s | None => sa_free end.
Definition t_eth : list Z := [2; 0; 0; 0; 0; 2; 2; 0; 0; 0; 0; 1; 8; 0].
Definition t_ip (ihl : Z) (opts pl : list Z) : list Z :=
  let ip := [64 + ihl; 0] ++ be16 (20 + zlen opts + zlen pl) ++ [0; 1; 64; 0; 64; 17; 0; 0] ++ be32 t_src ++ be32 t_dst ++ opts ++ pl in
  match iphdr_set_checksum ip with Some ip => ip | None => [] end.
Definition t_dg (k : Z) : list Z := if k =? 2 then t_ip 6 [1; 1; 1; 0] [k; 20; 30] else t_ip 5 [] [k; 11; 12; 13; 14].
Definition t_sends : list (option (list Z) * list Z) := map (fun k => (t_rng, t_dg k)) [1; 2; 3].
Definition t_sent (n : newsa) : list wres := match tx_all toy [sa_free; t_sa n] t_sends with Some (_, ws) => ws | None => [] end.
Definition t_frame (n : newsa) (i : nat) : list Z :=
  match nth_error (t_sent n) i with Some (WSend w) => t_eth ++ w ++ repeat 0 6 | _ => [] end.

Lemma bytes_forall l : is_bytes l = true -> Forall byte l.
Proof. unfold is_bytes. rewrite forallb_forall. intros H. apply Forall_forall. intros a Ha. specialize (H a Ha). unfold byte. lia. Qed.
Lemma t_dg_ok k : In k [1; 2; 3] -> datagram (t_dg k) /\ src_of (t_dg k) = t_src /\ dst_of (t_dg k) = t_dst.
Proof.
  intros [<- |[<- |[<- |[]]]]; (split; [split; [vm_compute; intuition discriminate|split; [reflexivity|split; [apply bytes_forall; vm_compute; reflexivity|vm_compute; reflexivity]]]|split; vm_compute; reflexivity]).
Qed.
Lemma t_sa_ok n : In n t_new -> sa_ok (t_sa n) /\ sa_icv (t_sa n) <> 0 /\ sa_rep (t_sa n) = esp_replay_init /\ covers (t_sa n) t_src t_dst /\ sa_spi (t_sa n) = [1; 2; 3; 4].
Proof.
  intros H. assert (OK : forall n, make_sa [1; 2; 3; 4] 0 t_dst n = Some (t_sa n) -> newsa_ok n -> sa_rep (t_sa n) = esp_replay_init -> sa_ok (t_sa n)).
  { intros n0 E NO ER. pose proof (make_ok [1; 2; 3; 4] 0 t_dst n0 None _ eq_refl ltac:(discriminate) NO I E) as X.
    cbn [esp_state_restore] in X. destruct (t_sa n0); exact X. }
  destruct H as [<- |[<- |[<- |[<- |[<- |[]]]]]];
  (split; [apply OK; [vm_compute; reflexivity|vm_compute; try exact I; discriminate|reflexivity]|];
   split; [discriminate|]; split; [reflexivity|]; split; [|reflexivity];
   split; [discriminate|split; [right; reflexivity|left; reflexivity]]).
Qed.
Lemma t_pair n k : In n t_new -> In k [1; 2; 3] -> for_pair [sa_free] (t_sa n) [] (t_sa n) (t_dg k).
Proof.
  intros Hn Hk. destruct (t_dg_ok k Hk) as (D & E1 & E2). destruct (t_sa_ok n Hn) as (_ & _ & _ & C & _). unfold for_pair. rewrite E1, E2.
  split; [exact D|]. split.
  - split; [exact I|]. split; [exact C|]. intros x [<- |[]] (_ & X). exact (free_not_covers _ _ X).
  - split; [unfold has_spi; reflexivity|]. split; [exact C|]. intros x [].
Qed.

Lemma t_carries n i : match nth_error (t_sent n) i with Some (WSend _) => True | _ => False end -> zlen (t_frame n i) <= 1536 ->
  carries t_eth (t_sent n) i (t_frame n i).
Proof.
  unfold t_frame. destruct (nth_error (t_sent n) i) as [[w| |]|] eqn:E; try contradiction. intros _ L. exists w, (repeat 0 6). auto.
Qed.
(** C76: for every suite, three datagrams (one with options) sent, the second
    arriving first, then the first, then the second again: exactly two arrive. *)
Example esp_example_exactly_once : forall n, In n t_new ->
  crypto_ok toy /\ zlen t_eth = 14 /\ sa_ok (t_sa n) /\ same_suite (t_sa n) (t_sa n) /\ sa_icv (t_sa n) <> 0 /\
  sa_rep (t_sa n) = esp_replay_init /\ zlen t_sends < 4294967296 /\
  (forall rng ip, In (rng, ip) t_sends -> rng_ok rng /\ for_pair [sa_free] (t_sa n) [] (t_sa n) ip) /\
  option_map snd (tx_all toy [sa_free; t_sa n] t_sends) = Some (t_sent n) /\
  Forall2 (carries t_eth (t_sent n)) [1%nat; 0%nat; 1%nat] [t_frame n 1; t_frame n 0; t_frame n 1] /\
  option_map snd (rx_all toy [t_sa n] [t_frame n 1; t_frame n 0; t_frame n 1]) =
    Some [strip_options (t_eth ++ t_dg 2); Some (t_eth ++ t_dg 1); None].
Proof.
  intros n Hn. destruct (t_sa_ok n Hn) as (OK & NZ & RI & _). split; [exact toy_ok|]. split; [reflexivity|]. split; [exact OK|].
  split; [unfold same_suite; auto 10|]. split; [exact NZ|]. split; [exact RI|]. split; [reflexivity|].
  split.
  { intros rng ip Hin. unfold t_sends in Hin. apply in_map_iff in Hin. destruct Hin as (k & E & Hk). injection E as <- <-.
    split; [vm_compute; discriminate|apply t_pair; assumption]. }
  destruct Hn as [<- |[<- |[<- |[<- |[<- |[]]]]]];
  (split; [vm_compute; reflexivity|]; split;
   [repeat constructor; (apply t_carries; [vm_compute; exact I|vm_compute; discriminate])
   |vm_compute; reflexivity]).
Qed.

(** C77: the receiver of the above meets its hypotheses, and a frame with one
    byte of payload changed is dropped. *)
Definition t_bad (n : newsa) : list Z := firstn 50 (t_frame n 0) ++ [Z.lxor (nth 50 (t_frame n 0) 0) 1] ++ skipn 51 (t_frame n 0).
Definition wf_b (f : list Z) : bool :=
  (34 <=? zlen f) && (zget f 14 / 16 =? 4) && (20 <=? ihl f) && (ihl f <=? total f) && (total f <=? zlen f - 14) &&
  (word f 20 mod 16384 =? 0) && is_bytes (part f 14 (ihl f)) && (zlen (part f 14 (ihl f)) <=? 65535) && match checksum (part f 14 (ihl f)) with Some 0 => true | _ => false end.
Lemma wf_dec f : wf_b f = true -> wellformed f.
Proof.
  unfold wf_b. rewrite !andb_true_iff. intros ((((((((A1 & A2) & A3) & A4) & A5) & A6) & A7) & A9) & A8). unfold wellformed.
  split; [lia|]. split; [lia|]. split; [lia|]. split; [lia|]. split; [|lia].
  destruct (checksum (part f 14 (ihl f))) as [k|] eqn:E; [|discriminate].
  destruct (checksum_accepts_iff_valid (part f 14 (ihl f)) (bytes_forall _ A7) ltac:(lia)) as (k' & E' & _ & HV). rewrite E in E'. injection E' as <-. apply HV. destruct k; [reflexivity|discriminate|discriminate].
Qed.
Example esp_example_authentic : forall n, In n t_new ->
  protected [t_sa n; sa_free] /\ table_ok [t_sa n; sa_free] /\ Forall frame_ok [t_frame n 0; t_bad n; t_frame n 0] /\
  (forall h, strip_options (t_frame n 0) = Some h -> proto h = 50) /\
  esp_in toy false [t_sa n; sa_free] (t_bad n) = Some ([t_sa n; sa_free], None) /\
  option_map snd (rx_all toy [t_sa n; sa_free] [t_frame n 0; t_bad n; t_frame n 0]) = Some [Some (t_eth ++ t_dg 1); None; None].
Proof.
  intros n Hn. destruct (t_sa_ok n Hn) as (OK & NZ & RI & _).
  split. { intros s [<- |[<- |[]]]; [right|left; reflexivity]. rewrite RI. auto. }
  split. { intros s [<- |[<- |[]]]; [right; exact OK|left; reflexivity]. }
  destruct Hn as [<- |[<- |[<- |[<- |[<- |[]]]]]];
  (split;
   [apply Forall_cons; [|apply Forall_cons; [|apply Forall_cons; [|apply Forall_nil]]];
    (split; [apply bytes_forall; vm_compute; reflexivity|]; split; [|vm_compute; discriminate]; apply wf_dec; vm_compute; reflexivity)
   |split; [intros h E; vm_compute in E; injection E as <-; reflexivity
   |split; [vm_compute; reflexivity|vm_compute; reflexivity]]]).
Qed.

(** C78: two packets of the GCM association. *)
Example esp_example_nonces : map (fun r => match r with WSend w => pkt_iv (sent_pkt w) | _ => [] end) (t_sent (NGcm EGcm4106 (repeat 7 20) t_rng)) =
  [[100; 101; 102; 103; 104; 105; 106; 106]; [100; 101; 102; 103; 104; 105; 106; 105]; [100; 101; 102; 103; 104; 105; 106; 104]].
Proof. vm_compute. reflexivity. Qed.

(** C79: a history that meets its hypotheses. *)
Example esp_example_history : let os := [ENew false [1; 2; 3; 4] 0 t_dst (NGcm EGcm4106 (repeat 7 20) t_rng) None; ESend t_rng (t_dg 1);
     EDel false [1; 2; 3; 4]; ENew false [1; 2; 3; 4] 0 t_dst (NCbc (repeat 3 16) ANone None 0) (Some (mkSaved 9 70 1)); ESend t_rng (t_dg 3)] in
  Forall eop_ok os /\ option_map (fun st => map (fun s => r_oseq (sa_rep s)) (snd st)) (erun toy (repeat sa_free 2, repeat sa_free 2) os) = Some [10; 0].
Proof.
  cbv zeta. split.
  - repeat constructor; vm_compute; try exact I; try discriminate.
  - vm_compute. reflexivity.
Qed.

(** Outside Ethernet devices the claim of esp_never_clear fails: esp_send is
    called only for those, whatever the associations say. *)
Theorem esp_never_clear_refuted : ~ (forall c rng noneth outs eth ip outs' f, crypto_ok c -> rng_ok rng -> table_ok outs -> datagram ip ->
  (exists s, In s outs /\ covers s (src_of ip) (dst_of ip)) -> esp_out c rng noneth outs eth ip = Some (outs', Some f) -> f <> eth ++ ip).
Proof.
  intros H. set (n := NGcm EGcm4106 (repeat 7 20) t_rng). assert (Hn : In n t_new) by (left; reflexivity).
  destruct (t_sa_ok n Hn) as (OK & _ & _ & C & _). destruct (t_dg_ok 1) as (D & E1 & E2); [left; reflexivity|].
  apply (H toy t_rng true [t_sa n] [] (t_dg 1) [t_sa n] (t_dg 1)); auto.
  - exact toy_ok.
  - vm_compute. discriminate.
  - intros s [<- |[]]. right. exact OK.
  - exists (t_sa n). rewrite E1, E2. split; [left; reflexivity|exact C].
Qed.
Print Assumptions esp_never_clear_refuted.
(** Nothing is required of what arrives: cleartext from a peer with which
    inbound associations are configured is delivered all the same. *)
Theorem esp_inbound_policy_refuted : ~ (forall c ins f ins' g, crypto_ok c -> frame_ok f -> table_ok ins ->
  (exists s, In s ins /\ covers s (src f) (dst f)) -> esp_in c false ins f = Some (ins', Some g) -> proto f = 50).
Proof.
  intros H. set (n := NGcm EGcm4106 (repeat 7 20) t_rng). assert (Hn : In n t_new) by (left; reflexivity).
  destruct (t_sa_ok n Hn) as (OK & _ & _ & C & _).
  assert (P : proto (t_eth ++ t_dg 1) = 50).
  { apply (H toy [t_sa n] (t_eth ++ t_dg 1) [t_sa n] (t_eth ++ t_dg 1)).
    - exact toy_ok.
    - split; [apply bytes_forall; vm_compute; reflexivity|]. split; [|vm_compute; discriminate].
      apply wf_dec. vm_compute. reflexivity.
    - intros s [<- |[]]. right. exact OK.
    - exists (t_sa n). split; [left; reflexivity|]. exact C.
    - vm_compute. reflexivity. }
  vm_compute in P. discriminate.
Qed.
Print Assumptions esp_inbound_policy_refuted.
