(** C21: reading the options of a DHCP reply. *)
From Verif Require Import Base HttpUrl ListUtil DhcpOptSpec DhcpOpt DhcpOptProofs.

(** Every reply, whatever its bytes, is read completely without any access outside the
    message or the reassembly buffer, and the walk ends; each option handed to the client
    is literally present in the options field followed by the overloaded fields, and when
    the walk reported no valid overload option, in the options field alone. *)
Theorem dhcp_options_total m len strict :
  zlen m = 552 -> Forall byte m -> 240 <= len < 4294967296 ->
  exists os e, owalk m len strict = Some (os, e) /\
    (strict = true -> e <> Some false) /\ (strict = false -> e <> None) /\
    Forall opt_ok os /\
    Forall (fun o => exists v, 0 <= v <= 3 /\
              infix (enc1 o) (f_options m len ++ overload v (f_sname m) (f_file m))) os /\
    ((forall v, 1 <= v <= 3 -> ~ In (52, [v]) os) -> Forall (fun o => infix (enc1 o) (f_options m len)) os).
Proof.
  intros H1 H2 H3.
  destruct (oloop_ok m (f_options m len) FUEL (oinit len strict) (f_options m len)
    (Inv_init m len strict H1 H2 H3)) as (os & e & A1 & A2 & A3 & A4 & A5 & A6).
  - pose proof (mu_init len strict H3). unfold FUEL. lia.
  - apply mu_init; assumption.
  - apply Whole_init; assumption.
  - exists os, e. split; [exact A1|]. split; [exact A2|]. split; [exact A3|]. split; [exact A4|].
    split; [exact A5|]. intros HH. apply A6; [reflexivity|reflexivity|exact HH].
Qed.
Print Assumptions dhcp_options_total.

(** Without overload option the reply's options are the TLV reading of the options field:
    nothing is invented, skipped, duplicated or reordered. *)
Theorem dhcp_options_plain m len strict os e :
  zlen m = 552 -> Forall byte m -> 240 <= len < 4294967296 ->
  tlv (f_options m len) os e -> (forall d, ~ In (52, d) os) ->
  owalk m len strict =
    Some (os, match e with FEnd => Some true | _ => if strict then None else Some false end).
Proof.
  intros H1 H2 H3 HT H52. unfold owalk.
  rewrite (oloop_tlv m FUEL (oinit len strict) os e).
  - unfold answer. reflexivity.
  - apply Inv_init; assumption.
  - pose proof (mu_init len strict H3). unfold FUEL. lia.
  - apply mu_init; assumption.
  - rewrite strm_init by assumption. exact HT.
  - exact H52.
Qed.
Print Assumptions dhcp_options_plain.

(** A run of padded options. *)
Inductive run : list Z -> list opt -> Prop :=
| Run_nil : run [] []
| Run_opt n c d p os : 1 <= c <= 254 -> zlen d <= 255 -> run p os ->
    run (repeat 0 n ++ c :: zlen d :: d ++ p) ((c, d) :: os).

Lemma oloop_run m v n r os2 e : forall p os1, run p os1 -> (forall d, ~ In (52, d) os1) ->
  forall fuel st, Inv m st -> mu st < Z.of_nat fuel -> mu st < 5000 -> o_ov st = 0 -> o_reg st = 0 -> o_fill st = None ->
  1 <= v <= 3 ->
  strm m st = p ++ repeat 0 n ++ [52; 1; v] ++ r ->
  tlv (r ++ overload v (f_sname m) (f_file m)) os2 e -> (forall d, ~ In (52, d) os2) ->
  oloop fuel m st = Some (os1 ++ (52, [v]) :: os2, answer (o_strict st) e).
Proof.
  intros p os1 HR. induction HR as [|k c d p os1 Hc Hl HR IH]; intros H52 fuel st HI HM HM2 Hov Hreg Hf Hv HS HT H52'.
  - destruct fuel as [|fuel]; [pose proof (mu_nonneg m st HI); lia|]. cbn [oloop].
    destruct (onext_plain m FUEL st n 52 [v] r HI ltac:(unfold FUEL; lia) Hov Hreg ltac:(lia) ltac:(lia)
      ltac:(unfold byte, zlen; cbn; lia) (or_intror Hf) HS ltac:(intros _; exists v; auto))
      as (st' & F1 & F2 & F3 & F4 & F5 & F6 & F7).
    rewrite F1. cbn [obind Z.eqb Pos.eqb].
    rewrite (oloop_tlv m fuel st' os2 e F3 ltac:(lia) ltac:(lia)); [|rewrite (F7 eq_refl); exact HT|exact H52'].
    cbn [obind app]. rewrite F2. reflexivity.
  - destruct fuel as [|fuel]; [pose proof (mu_nonneg m st HI); lia|]. cbn [oloop].
    assert (Hc52 : c <> 52) by (intros ->; apply (H52 d); left; reflexivity).
    rewrite <- app_assoc in HS. cbn [app] in HS. rewrite <- app_assoc in HS.
    destruct (onext_plain m FUEL st k c d _ HI ltac:(unfold FUEL; lia) Hov Hreg ltac:(lia) ltac:(lia)
      ltac:(unfold byte; pose proof (zlen_nonneg d); lia) (or_intror Hf) HS ltac:(intros; lia))
      as (st' & F1 & F2 & F3 & F4 & F5 & F6 & F7).
    destruct (F6 Hc52) as (G1 & G2 & G3).
    rewrite F1. cbn [obind]. replace (c =? 255) with false by lia.
    rewrite (IH ltac:(intros d0 Hd; apply (H52 d0); right; exact Hd) fuel st' F3 ltac:(lia) ltac:(lia) G1 G2 F4 Hv G3 HT H52').
    cbn [obind app]. rewrite F2. reflexivity.
Qed.

(** With an overload option of value [v] among the options of the options field, the
    options are the TLV reading of the rest of that field continued by the fields [v]
    selects, even when an option straddles two fields. *)
Theorem dhcp_options_overload m len strict p os1 n v r os2 e :
  zlen m = 552 -> Forall byte m -> 240 <= len < 4294967296 ->
  f_options m len = p ++ repeat 0 n ++ [52; 1; v] ++ r -> 1 <= v <= 3 ->
  run p os1 -> (forall d, ~ In (52, d) os1) ->
  tlv (r ++ overload v (f_sname m) (f_file m)) os2 e -> (forall d, ~ In (52, d) os2) ->
  owalk m len strict =
    Some (os1 ++ (52, [v]) :: os2, match e with FEnd => Some true | _ => if strict then None else Some false end).
Proof.
  intros H1 H2 H3 HF Hv HR H52 HT H52'. unfold owalk.
  pose proof (mu_init len strict H3).
  apply (oloop_run m v n r os2 e p os1 HR H52 FUEL (oinit len strict)).
  - apply Inv_init; assumption.
  - unfold FUEL. lia.
  - lia.
  - reflexivity.
  - reflexivity.
  - reflexivity.
  - exact Hv.
  - rewrite strm_init by assumption. exact HF.
  - exact HT.
  - exact H52'.
Qed.
Print Assumptions dhcp_options_overload.

(** Round trip: options a server writes, terminated by END, are the options the client reads. *)
Lemma tlv_enc os t : Forall opt_ok os -> tlv (enc os ++ 255 :: t) os FEnd.
Proof.
  induction 1 as [|[c d] os Ho _ IH]; [constructor|].
  unfold enc. cbn [map concat enc1 fst snd app]. rewrite <- app_assoc.
  unfold opt_ok in Ho; cbn [fst snd] in Ho. apply T_opt; try lia. exact IH.
Qed.
Theorem dhcp_options_round_trip m len strict os t :
  zlen m = 552 -> Forall byte m -> 240 <= len < 4294967296 -> Forall opt_ok os ->
  f_options m len = enc os ++ 255 :: t -> (forall d, ~ In (52, d) os) ->
  owalk m len strict = Some (os, Some true).
Proof.
  intros H1 H2 H3 HO HF H52.
  apply (dhcp_options_plain m len strict os FEnd); try assumption. rewrite HF. apply tlv_enc. exact HO.
Qed.
Print Assumptions dhcp_options_round_trip.

(** What RFC 2131 section 4.1 asks for and this client does not do. *)
(** (a) the 'file' field is to be read before the 'sname' field *)
Definition mkmsg (sname file opts : list Z) : list Z :=
  repeat 0 44 ++ (sname ++ repeat 0 (64 - length sname)) ++ (file ++ repeat 0 (128 - length file)) ++
  repeat 0 4 ++ (opts ++ repeat 0 (312 - length opts)).
Theorem dhcp_options_file_first_refuted :
  ~ (forall m len os1 os2, zlen m = 552 -> Forall byte m -> 240 <= len <= 552 ->
      (exists t, f_options m len = [52; 1; 3] ++ t /\ tlv t [] FOut) ->
      (exists t, f_file m = enc os1 ++ t /\ tlv t [] FOut) -> (exists t, f_sname m = enc os2 ++ t /\ tlv t [] FOut) ->
      (forall d, ~ In (52, d) (os1 ++ os2)) ->
      exists e, owalk m len false = Some ((52, [3]) :: os1 ++ os2, e)).
Proof.
  intros H.
  specialize (H (mkmsg [3; 1; 8] [1; 1; 9] [52; 1; 3]) 552 [(1, [9])] [(3, [8])]).
  destruct H as (e & H).
  - vm_compute; reflexivity.
  - repeat (constructor; [unfold byte; lia|]). constructor.
  - lia.
  - exists (repeat 0 309). split; [vm_compute; reflexivity|]. generalize 309%nat. intros n; induction n; constructor; auto.
  - exists (repeat 0 125). split; [vm_compute; reflexivity|]. generalize 125%nat. intros n; induction n; constructor; auto.
  - exists (repeat 0 61). split; [vm_compute; reflexivity|]. generalize 61%nat. intros n; induction n; constructor; auto.
  - intros d [X|[X|[]]]; discriminate X.
  - vm_compute in H. discriminate H.
Qed.
Print Assumptions dhcp_options_file_first_refuted.
(** (b) END closes the options field only, the overloaded fields are still to be read *)
Theorem dhcp_options_end_stops_overload_refuted :
  ~ (forall m len os1, zlen m = 552 -> Forall byte m -> 240 <= len <= 552 ->
      (exists t, f_options m len = [52; 1; 1; 255] ++ t) ->
      (exists t, f_file m = enc os1 ++ 255 :: t) -> (forall d, ~ In (52, d) os1) ->
      exists e, owalk m len false = Some ((52, [1]) :: os1, e)).
Proof.
  intros H.
  specialize (H (mkmsg [] [1; 1; 9; 255] [52; 1; 1; 255]) 552 [(1, [9])]).
  destruct H as (e & H).
  - vm_compute; reflexivity.
  - repeat (constructor; [unfold byte; lia|]). constructor.
  - lia.
  - eexists. vm_compute; reflexivity.
  - eexists. vm_compute; reflexivity.
  - intros d [X|[]]; discriminate X.
  - vm_compute in H. discriminate H.
Qed.
Print Assumptions dhcp_options_end_stops_overload_refuted.
(** (c) an overload option with a bad value hides every option that follows it in the
    options field, although each of them is well formed *)
Theorem dhcp_options_bad_overload_hides_refuted :
  ~ (forall m len os e, zlen m = 552 -> Forall byte m -> 240 <= len <= 552 ->
      tlv (f_options m len) os e -> exists e', owalk m len false = Some (os, e')).
Proof.
  intros H.
  specialize (H (mkmsg [] [] [52; 1; 4; 1; 1; 9; 255]) 552 [(52, [4]); (1, [9])] FEnd).
  destruct H as (e & H).
  - vm_compute; reflexivity.
  - repeat (constructor; [unfold byte; lia|]). constructor.
  - lia.
  - replace (f_options (mkmsg [] [] [52; 1; 4; 1; 1; 9; 255]) 552)
      with (enc [(52, [4]); (1, [9])] ++ 255 :: repeat 0 305) by (vm_compute; reflexivity).
    apply tlv_enc. repeat constructor; cbn; try lia; unfold zlen; cbn; lia.
  - vm_compute in H. discriminate H.
Qed.
Print Assumptions dhcp_options_bad_overload_hides_refuted.

(** Concrete replies meeting the hypotheses. *)
Definition offer_opts : list opt := [(53, [2]); (54, [10; 0; 0; 1]); (1, [255; 255; 255; 0])].
Example ex_plain : owalk (mkmsg [] [] (enc offer_opts ++ [255])) 300 true = Some (offer_opts, Some true).
Proof. vm_compute; reflexivity. Qed.
Example ex_plain_hyp : f_options (mkmsg [] [] (enc offer_opts ++ [255])) 300 = enc offer_opts ++ 255 :: repeat 0 44 /\
  Forall opt_ok offer_opts /\ zlen (mkmsg [] [] (enc offer_opts ++ [255])) = 552.
Proof.
  split; [vm_compute; reflexivity|]. split; [|vm_compute; reflexivity].
  repeat constructor; cbn; try lia; unfold zlen; cbn; lia.
Qed.
(** an option that starts in the options field and ends in 'file' *)
Example ex_straddle :
  owalk (mkmsg [] [7; 8; 9; 255] [53; 1; 5; 52; 1; 1; 3; 4; 6]) 249 true =
    Some ([(53, [5]); (52, [1]); (3, [6; 7; 8; 9])], Some true).
Proof. vm_compute; reflexivity. Qed.
Example ex_straddle_hyp :
  let m := mkmsg [] [7; 8; 9; 255] [53; 1; 5; 52; 1; 1; 3; 4; 6] in
  f_options m 249 = [53; 1; 5] ++ repeat 0 0 ++ [52; 1; 1] ++ [3; 4; 6] /\ run [53; 1; 5] [(53, [5])] /\
  tlv ([3; 4; 6] ++ overload 1 (f_sname m) (f_file m)) [(3, [6; 7; 8; 9])] FEnd.
Proof.
  cbv zeta. split; [vm_compute; reflexivity|]. split.
  - apply (Run_opt 0 53 [5] [] []); [lia|vm_compute; congruence|constructor].
  - match goal with |- tlv ?x _ _ => replace x with (3 :: zlen [6;7;8;9] :: [6; 7; 8; 9] ++ 255 :: repeat 0 124) by (vm_compute; reflexivity) end.
    apply T_opt; try lia. apply T_end.
Qed.
