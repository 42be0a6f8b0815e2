(** wolfGuard data-message counters: src/wolfguard/wg_packet.c:52-92
    (wg_counter_validate), :207-239 and :335-352 (sending counter),
    src/wolfguard/wg_noise.c:658-661 (initial values). *)
From Verif Require Import Base.

(** src/wolfguard/wolfguard.h:54 *)
Definition WG_WINDOW := 1024.
(** src/wolfguard/wolfguard.h:144 (UINT64_MAX - WINDOW - 1) *)
Definition WG_REJECT_AFTER_MESSAGES := 18446744073709551615 - WG_WINDOW - 1.

(** src/wolfguard/wolfguard.h:237-239, the receive side of struct wg_keypair;
    the bitmap is WINDOW/32 words of 32 bits. *)
Record wgrx := mkWgrx { w_max : Z; w_bits : list Z }.

(** src/wolfguard/wg_noise.c:658-661 *)
Definition wgrx_init : wgrx := mkWgrx 0 (repeat 0 32).

Definition set_word (l : list Z) (i v : Z) : list Z :=
  firstn (Z.to_nat i) l ++ v :: skipn (S (Z.to_nat i)) l.

(** wg_packet.c:70-75: one iteration of the clearing loop. *)
Definition clear_bit (l : list Z) (i : Z) : list Z :=
  let bit_idx := u32 (i mod WG_WINDOW) in
  let word := bit_idx / 32 in
  let bit := bit_idx mod 32 in
  set_word l word (Z.land (zget l word) (u32 (Z.lnot (Z.shiftl 1 bit)))).

(** wg_packet.c:70: for (i = max + 1; i <= counter; i++); [n] is the number of
    iterations, [counter - max]. *)
Fixpoint clear_from (n : nat) (i : Z) (l : list Z) : list Z :=
  match n with
  | O => l
  | S m => clear_from m (i + 1) (clear_bit l i)
  end.

(** wg_packet.c:52-92 wg_counter_validate: new state and return value.  The
    addition on line 78 is done in uint64_t. *)
Definition wg_counter_validate (k : wgrx) (counter : Z) : wgrx * bool :=
  if WG_REJECT_AFTER_MESSAGES <=? counter then (k, false) else
  let advance := w_max k <? counter in
  if negb advance && (u64 (counter + WG_WINDOW) <=? w_max k) then (k, false) else
  let k1 :=
    if advance then
      let diff := u64 (counter - w_max k) in
      mkWgrx counter
        (if WG_WINDOW <=? diff then repeat 0 32
         else clear_from (Z.to_nat diff) (w_max k + 1) (w_bits k))
    else k in
  let bit_idx := u32 (counter mod WG_WINDOW) in
  let word := bit_idx / 32 in
  let bit := bit_idx mod 32 in
  if negb (Z.land (zget (w_bits k1) word) (Z.shiftl 1 bit) =? 0) then (k1, false)
  else (mkWgrx (w_max k1) (set_word (w_bits k1) word (Z.lor (zget (w_bits k1) word) (Z.shiftl 1 bit))), true).

(** wg_packet.c:388-418 (the order in wg_handle_data): the counter is validated
    only after the AEAD accepted the packet. *)
Definition wg_inbound (k : wgrx) (counter : Z) (aead_ok : bool) : wgrx * bool :=
  if negb aead_ok then (k, false) else wg_counter_validate k counter.
