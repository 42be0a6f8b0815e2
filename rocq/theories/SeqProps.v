(** Properties C06 (wrap-safe comparison) and C13 (RFC 9293 acceptability). *)
From Verif Require Import Base Seq.

Definition is_u32 (x : Z) := 0 <= x < 4294967296.

(** ** C06 *)
Theorem seq_inc_adds : forall x n, 0 <= n < 4294967296 -> tcp_seq_inc (u32 x) n = u32 (x + n).
Proof. intros x n Hn. unfold tcp_seq_inc, u32. destruct (_ <? n) eqn:E; lia. Qed.

Theorem seq_leq_order : forall x y, Z.abs (x - y) < 2147483648 -> tcp_seq_leq (u32 x) (u32 y) = (x <=? y).
Proof.
  intros x y H. unfold tcp_seq_leq, u32.
  destruct (x mod 4294967296 <=? y mod 4294967296) eqn:E; lia.
Qed.
Theorem seq_lt_order : forall x y, Z.abs (x - y) < 2147483648 -> tcp_seq_lt (u32 x) (u32 y) = (x <? y).
Proof. intros x y H. unfold tcp_seq_lt. rewrite seq_leq_order by assumption. unfold u32. lia. Qed.
Theorem seq_diff_order : forall x y, - 2147483648 <= x - y < 2147483648 -> tcp_seq_diff (u32 x) (u32 y) = x - y.
Proof.
  intros x y H. unfold tcp_seq_diff, s32, u32.
  destruct (((x mod 4294967296 - y mod 4294967296) mod 4294967296) mod 4294967296 <? 2147483648) eqn:E; lia.
Qed.
(** Any two sequence numbers are comparable, and comparison is exact except at
    distance exactly 2^31, where each side counts as not after the other. *)
Theorem seq_compare_total : forall a b, is_u32 a -> is_u32 b ->
  (tcp_seq_leq a b = true \/ tcp_seq_leq b a = true) /\
  (tcp_seq_leq a b = true -> tcp_seq_leq b a = true -> a = b \/ Z.abs (a - b) = 2147483648) /\
  (tcp_seq_lt a b = true -> tcp_seq_lt b a = true -> Z.abs (a - b) = 2147483648).
Proof.
  unfold is_u32, tcp_seq_lt, tcp_seq_leq. intros a b Ha Hb.
  destruct (a <=? b) eqn:E1; destruct (b <=? a) eqn:E2; lia.
Qed.

(** ** C13: RFC 9293 section 3.10.7.4, in terms of unwrapped stream offsets.
    [R] is RCV.NXT, [W] RCV.WND, [X] SEG.SEQ and [L] SEG.LEN. *)
Definition rfc9293_acceptable (R W X L : Z) : Prop :=
  (L = 0 /\ W = 0 /\ X = R) \/
  (L = 0 /\ 0 < W /\ R <= X < R + W) \/
  (0 < L /\ 0 < W /\ (R <= X < R + W \/ R <= X + L - 1 < R + W)).

Theorem acceptable_iff_rfc9293 : forall R W X L,
  0 <= W < 2^30 -> 0 <= L < 2^30 -> Z.abs (X - R) < 2^30 ->
  tcp_segment_acceptable (u32 R) W (u32 X) L = true <-> rfc9293_acceptable R W X L.
Proof.
  intros R W X L HW HL HX. unfold tcp_segment_acceptable, rfc9293_acceptable.
  change (2^30) with 1073741824 in *.
  rewrite seq_inc_adds by lia.
  rewrite (seq_leq_order R X), (seq_lt_order X (R + W)) by lia.
  destruct (L =? 0) eqn:EL.
  - destruct (W =? 0) eqn:EW; [unfold u32; lia|lia].
  - assert (HU : u32 (L - 1) = L - 1) by (unfold u32; lia). rewrite HU.
    rewrite (seq_inc_adds X (L - 1)) by lia.
    rewrite (seq_leq_order R (X + (L - 1))), (seq_lt_order (X + (L - 1)) (R + W)) by lia.
    destruct (W =? 0) eqn:EW; lia.
Qed.

(** A segment lying entirely outside the window is never accepted, without
    assuming it is near the window: for arbitrary 32-bit values the accepted
    first or last octet is within the window modulo 2^32. *)
Theorem acceptable_in_window : forall R W S L, is_u32 R -> 0 <= W < 2^30 -> is_u32 S -> 0 <= L < 2^30 ->
  tcp_segment_acceptable R W S L = true ->
  (S - R) mod 2^32 < Z.max 1 W \/ (0 < L /\ (S + L - 1 - R) mod 2^32 < W).
Proof.
  unfold is_u32. intros R W S L HR HW HS HL. unfold tcp_segment_acceptable.
  change (2^30) with 1073741824 in *. change (2^32) with 4294967296 in *.
  assert (KEY : forall x, 0 <= x < 4294967296 -> 0 < W ->
     tcp_seq_leq R x && tcp_seq_lt x (tcp_seq_inc R W) = true -> (x - R) mod 4294967296 < W).
  { intros x Hx HW0. unfold tcp_seq_lt, tcp_seq_leq, tcp_seq_inc, u32.
    destruct (4294967295 - R <? W) eqn:E0; destruct (R <=? x) eqn:E1;
    match goal with |- context [x <=? ?y] => destruct (x <=? y) eqn:E2 end; lia. }
  destruct (L =? 0) eqn:EL.
  - destruct (W =? 0) eqn:EW; [lia|]. intros H. left. apply KEY in H; lia.
  - destruct (W =? 0) eqn:EW; [discriminate|]. intros H. apply orb_prop in H as [H|H].
    + left. apply KEY in H; lia.
    + right. apply KEY in H; [|unfold tcp_seq_inc, u32; destruct (_ <? _); lia|lia].
      split; [lia|]. revert H. unfold tcp_seq_inc, u32.
      destruct (4294967295 - S <? (L - 1) mod 4294967296) eqn:E; lia.
Qed.

(** C05: the window advertised to the peer never exceeds the free space. *)
Theorem adv_win_bounded : forall space shift, 0 <= space -> 0 <= shift ->
  0 <= tcp_adv_win space shift <= 65535 /\ tcp_adv_win space shift * 2 ^ shift <= space.
Proof.
  intros space shift Hs Hh. unfold tcp_adv_win. rewrite Z.shiftr_div_pow2 by assumption.
  assert (0 < 2 ^ shift) by (apply Z.pow_pos_nonneg; lia).
  assert (2 ^ shift * (space / 2 ^ shift) <= space) by (apply Z.mul_div_le; lia).
  assert (0 <= space / 2 ^ shift) by (apply Z.div_pos; lia).
  destruct (65535 <? space / 2 ^ shift) eqn:E; split; nia.
Qed.

(** Non-vacuity: numbers that straddle the 32-bit wrap. *)
Example seq_wrap : tcp_seq_lt 4294967290 5 = true /\ tcp_seq_lt 5 4294967290 = false /\ tcp_seq_inc 4294967290 11 = 5.
Proof. repeat split; reflexivity. Qed.
Example accept_wrap : tcp_segment_acceptable (u32 4294967290) 100 (u32 4294967300) 10 = true /\
  tcp_segment_acceptable (u32 4294967290) 100 (u32 4294967270) 10 = false.
Proof. split; reflexivity. Qed.

Print Assumptions seq_inc_adds.
Print Assumptions seq_leq_order.
Print Assumptions seq_lt_order.
Print Assumptions seq_diff_order.
Print Assumptions seq_compare_total.
Print Assumptions acceptable_iff_rfc9293.
Print Assumptions acceptable_in_window.
Print Assumptions adv_win_bounded.
