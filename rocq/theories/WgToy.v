(** A toy instance of the primitives wolfGuard uses: it satisfies every assumption
    the theorems make about them, and runs, so the theorems are not vacuous.  It
    has no cryptographic strength. *)
From Verif Require Import Base Arp WgAllowedIps WgCounter WgDevice.

(** What the handshake and transport theorems assume of the primitives: DH of two
    valid key pairs succeeds and commutes, decryption inverts encryption, outputs
    have their documented lengths. *)
Record crypto_ok (C : crypto) : Prop := {
  co_dh : forall a b A B, c_pub C a = Some A -> c_pub C b = Some B ->
          exists s, c_dh C a B = Some s /\ c_dh C b A = Some s;
  co_enc : forall k n p a, exists c, c_enc C k n p a = Some c /\ zlen c = zlen p + 16 /\ c_dec C k n c a = Some p;
  co_xenc : forall k n p a, exists c, c_xenc C k n p a = Some c /\ zlen c = zlen p + 16 /\ c_xdec C k n c a = Some p;
  co_pub : forall a A, c_pub C a = Some A -> zlen A = 65;
  co_mac : forall k m, zlen (c_hmac C k m) = 32;
  co_hash : forall m, zlen (c_hash C m) = 32
}.

Fixpoint toy_sum (n : Z) (l : list Z) (acc : Z) : Z :=
  match l with [] => acc | x :: l' => toy_sum (n + 1) l' ((acc * 31 + x + n) mod 281474976710597) end.
Definition toy_hash (l : list Z) : list Z :=
  let v := toy_sum 7 l (zlen l) in map (fun i => u8 (v / 2 ^ i)) [0; 8; 16; 24; 32; 40] ++ zbytes 26.
Definition toy_hmac (k m : list Z) : list Z := toy_hash (k ++ [255] ++ m).
Definition toy_pub (a : list Z) : option (list Z) := if Nat.eqb (length a) 32 then Some (4 :: a ++ a) else None.
Fixpoint zadd (a b : list Z) : list Z :=
  match a, b with x :: a', y :: b' => u8 (x + y) :: zadd a' b' | _, _ => [] end.
Definition toy_dh (a B : list Z) : option (list Z) :=
  if Nat.eqb (length a) 32 && Nat.eqb (length B) 65 then Some (zadd a (firstn 32 (skipn 1 B))) else None.
Definition toy_tag (k : list Z) (n : list Z) (p a : list Z) : list Z := firstn 16 (toy_hash (k ++ [256] ++ n ++ [257] ++ p ++ [258] ++ a)).
Definition toy_xenc (k n p a : list Z) : option (list Z) := Some (p ++ toy_tag k n p a).
Definition toy_xdec (k n c a : list Z) : option (list Z) :=
  let m := (length c - 16)%nat in
  let p := firstn m c in if leqb (skipn m c) (toy_tag k n p a) then Some p else None.
Definition toy : crypto := mkCrypto toy_hash toy_hmac toy_pub toy_dh
  (fun k n p a => toy_xenc k [n] p a) (fun k n c a => toy_xdec k [n] c a) toy_xenc toy_xdec.

Lemma leqb_refl l : leqb l l = true.
Proof. induction l as [|x l IH]; [reflexivity|]. cbn. rewrite Z.eqb_refl, IH. reflexivity. Qed.
Lemma leqb_eq a : forall b, leqb a b = true <-> a = b.
Proof.
  induction a as [|x a IH]; intros [|y b]; cbn; try (split; congruence).
  rewrite andb_true_iff, Z.eqb_eq, IH. split; [intros (-> & ->); reflexivity|]. intros [= -> ->]. auto.
Qed.
Lemma zadd_comm a : forall b, zadd a b = zadd b a.
Proof. induction a as [|x a IH]; intros [|y b]; try reflexivity. cbn. rewrite IH. f_equal. f_equal. lia. Qed.
Lemma toy_hash_len l : length (toy_hash l) = 32%nat.
Proof. unfold toy_hash, zbytes. rewrite app_length, map_length, repeat_length. reflexivity. Qed.
Lemma toy_tag_len k n p a : length (toy_tag k n p a) = 16%nat.
Proof. unfold toy_tag. rewrite firstn_length, toy_hash_len. reflexivity. Qed.
Lemma toy_xround k n p a : exists c, toy_xenc k n p a = Some c /\ zlen c = zlen p + 16 /\ toy_xdec k n c a = Some p.
Proof.
  exists (p ++ toy_tag k n p a). split; [reflexivity|]. split; [unfold zlen; rewrite app_length, toy_tag_len; lia|].
  unfold toy_xdec. rewrite app_length, toy_tag_len. replace (length p + 16 - 16)%nat with (length p) by lia.
  assert (E : firstn (length p) (p ++ toy_tag k n p a) = p) by (rewrite firstn_app, Nat.sub_diag, firstn_all; cbn; apply app_nil_r).
  rewrite E. rewrite skipn_app, Nat.sub_diag, skipn_all2 by lia. cbn [skipn app]. rewrite leqb_refl. reflexivity.
Qed.
Lemma toy_ok : crypto_ok toy.
Proof.
  constructor; cbn [toy c_pub c_dh c_enc c_dec c_xenc c_xdec c_hmac c_hash].
  - unfold toy_pub, toy_dh. intros a b A B. destruct (Nat.eqb_spec (length a) 32) as [La|]; [|discriminate].
    destruct (Nat.eqb_spec (length b) 32) as [Lb|]; [|discriminate]. intros [= <-] [= <-].
    assert (E : forall l : list Z, length l = 32%nat -> firstn 32 (skipn 1 (4 :: l ++ l)) = l).
    { intros l L. change (skipn 1 (4 :: l ++ l)) with (l ++ l). rewrite <- L. rewrite firstn_app, Nat.sub_diag, firstn_O, app_nil_r. apply firstn_all. }
    assert (LL : forall l : list Z, length l = 32%nat -> Nat.eqb (length (4 :: l ++ l)) 65 = true).
    { intros l L. cbn [length]. rewrite app_length, L. reflexivity. }
    rewrite !E, !LL by assumption. cbn [andb]. exists (zadd a b). split; [reflexivity|]. rewrite zadd_comm. reflexivity.
  - intros. apply toy_xround.
  - intros. apply toy_xround.
  - unfold toy_pub. intros a A. destruct (Nat.eqb_spec (length a) 32) as [L|]; [|discriminate]. intros [= <-].
    unfold zlen. cbn [length]. rewrite app_length, L. reflexivity.
  - intros. unfold toy_hmac, zlen. rewrite toy_hash_len. reflexivity.
  - intros. unfold zlen. rewrite toy_hash_len. reflexivity.
Qed.

(** Two devices that know each other: keys, endpoints, allowed addresses
    10.9.0.1 and 10.9.0.2 (raw network-order words). *)
Definition keyA : list Z := repeat 11 32.
Definition keyB : list Z := repeat 22 32.
Definition pubA : list Z := 4 :: keyA ++ keyA.
Definition pubB : list Z := 4 :: keyB ++ keyB.
Definition toy_psk : list Z := repeat 77 32.
Definition ipA : Z := 16845066. Definition ipB : Z := 33622282.
Definition setupA : list (op * list (list Z)) :=
  [(OKey keyA, []); (OPeer pubB toy_psk ipB 51820 0, []); (OAllow 0 33556746 32, []); (OPoll 1000, [])].
Definition setupB : list (op * list (list Z)) :=
  [(OKey keyB, []); (OPeer pubA toy_psk ipA 51820 0, []); (OAllow 0 16779530 32, []); (OPoll 1000, [])].
(** An IPv4 packet of 21 bytes from 10.9.0.1 to 10.9.0.2. *)
Definition toy_pkt : list Z := [69;0;0;21;0;0;0;0;64;17;0;0;10;9;0;1;10;9;0;2;99].
Definition last_udp (tr : list ev) : list Z :=
  fold_left (fun acc e => match e with EUdp _ _ b => b | _ => acc end) tr [].
Definition idx_block (n : Z) : list Z := [n; 0; 0; 0].
