(** ESP sequence-number machinery: anti-replay window, outbound counter and the
    state persistence hooks.  Models src/wolfesp.c:45-75 (save / restore),
    :1305-1377 (check / commit), :1490-1500 + :1583-1590 (order of use in
    esp_transport_unwrap), :1747-1754 (outbound sequence number) and
    wolfesp.h:56-74 (window size, state, initial values). *)
From Verif Require Import Base.

(** wolfesp.h:59 *)
Definition ESP_REPLAY_WIN := 64.

(** wolfesp.h:61-65 struct replay_t *)
Record replay := mkReplay { r_bitmap : Z; r_hi : Z; r_oseq : Z }.

(** wolfesp.h:69-74 esp_replay_init *)
Definition esp_replay_init : replay := mkReplay 0 ESP_REPLAY_WIN 0.

(** [1ULL << n] with a uint32_t shift count; a count of 64 or more is undefined
    behaviour, returned as [None]. *)
Definition shl1_u64 (n : Z) : option Z :=
  if n <? 64 then Some (u64 (Z.shiftl 1 n)) else None.

(** src/wolfesp.c:1305-1346 esp_replay_check: [Some true] is "return 0",
    [Some false] "return -1", [None] undefined behaviour. *)
Definition esp_replay_check (r : replay) (seq : Z) : option bool :=
  if seq =? 0 then Some false else
  let seq_low := if ESP_REPLAY_WIN - 1 <=? r_hi r
                 then u32 (r_hi r - (ESP_REPLAY_WIN - 1)) else 1 in
  if seq <? seq_low then Some false else
  if seq <=? r_hi r then
    do bitn <- shl1_u64 (u32 (r_hi r - seq));
    Some (if negb (Z.land (r_bitmap r) bitn =? 0) then false else true)
  else Some true.

(** src/wolfesp.c:1352-1377 esp_replay_commit *)
Definition esp_replay_commit (r : replay) (seq : Z) : option replay :=
  if seq <=? r_hi r then
    do bitn <- shl1_u64 (u32 (r_hi r - seq));
    Some (mkReplay (Z.lor (r_bitmap r) bitn) (r_hi r) (r_oseq r))
  else
    let diff := u32 (seq - r_hi r) in
    Some (mkReplay (if diff <? ESP_REPLAY_WIN
                    then Z.lor (u64 (Z.shiftl (r_bitmap r) diff)) 1 else 1)
                   seq (r_oseq r)).

(** src/wolfesp.c:1490-1500, 1509-1590: what esp_transport_unwrap does with the
    window for one packet on an SA with [icv_len <> 0].  [icv_ok] is the
    outcome of the length check, ICV verification and decryption, whatever they
    compute; the result says whether the sequence number was accepted. *)
Definition esp_inbound (r : replay) (seq : Z) (icv_ok : bool) : option (replay * bool) :=
  do ok <- esp_replay_check r seq;
  if negb ok then Some (r, false) else
  if negb icv_ok then Some (r, false) else
  do r' <- esp_replay_commit r seq;
  Some (r', true).

(** src/wolfesp.c:1747-1754: outbound sequence number of one packet; the second
    component is the number put on the wire, [None] when the packet is refused. *)
Definition esp_next_oseq (r : replay) : replay * option Z :=
  let o := u32 (r_oseq r + 1) in
  if o =? 0 then (mkReplay (r_bitmap r) (r_hi r) (u32 (o - 1)), None)
  else (mkReplay (r_bitmap r) (r_hi r) o, Some o).

(** What the persistence callback receives (wolfesp.h:114-118: all three
    parameters are uint32_t, although the bitmap is 64 bits wide). *)
Record saved := mkSaved { s_oseq : Z; s_hi : Z; s_bitmap : Z }.

(** src/wolfesp.c:46-53 esp_state_save with a callback registered. *)
Definition esp_state_save (r : replay) : saved :=
  mkSaved (r_oseq r) (r_hi r) (u32 (r_bitmap r)).

(** src/wolfesp.c:59-76 esp_state_restore: [cb] is what the read callback
    produces for the SA ([None]: no callback, or a non-zero return). *)
Definition esp_state_restore (r : replay) (cb : option saved) : replay :=
  match cb with
  | None => r
  | Some s => mkReplay (s_bitmap s) (s_hi s) (s_oseq s)
  end.
