(** TCP option parsing and construction.  Source: /repo/src/wolfip.c:3163-3263
    (parser), 3485-3530 (options of an ACK), 3797-3883 (options of a SYN / SYN-ACK /
    other control segment), 6680-6690 (options of a data segment).
    The frame is the list of its bytes; struct wolfIP_tcp_seg is packed: 14 bytes of
    Ethernet, 20 of IP, 20 of TCP (hlen at 46), then data[] at 54.
    Simplification: a [found] flag and its value are one [option]. *)
From Verif Require Import Base ListUtil Arp HttpUrl Seq.

(** struct tcp_parsed_opts, wolfip.c:3163-3172 *)
Record popts := Po { po_mss : option Z; po_ws : option Z; po_sackok : bool; po_ts : option (Z * Z); po_sack : list (Z * Z) }.
Definition po0 : popts := Po None None false None [].

(** wolfip.c:3177-3180 tcp_data_offset_bytes *)
Definition tcp_data_offset_bytes (hlen : Z) : Z := Z.shiftr (Z.land hlen 240) 2.

Definition rdm32 (m : list Z) (p : Z) : option Z := do b <- mread m p 4; Some (rd32 b 0).

(** wolfip.c:3241-3252: the SACK block loop; [n] blocks remain, the next one at [p]. *)
Fixpoint sack_loop (n : nat) (frame : list Z) (p : Z) (acc : list (Z * Z)) : option (list (Z * Z)) :=
  match n with
  | O => Some acc
  | S n' =>
      if negb (zlen acc <? 4) then Some acc else
      do le <- rdm32 frame p; do ri <- rdm32 frame (p + 4);
      sack_loop n' frame (p + 8) (if tcp_seq_lt le ri then acc ++ [(le, ri)] else acc)
  end.

(** wolfip.c:3198-3262: the option loop.  Running out of [fuel] is [None]; the
    theorems show that it never does. *)
Fixpoint opt_loop (fuel : nat) (frame : list Z) (opt opt_end : Z) (po : popts) : option popts :=
  match fuel with
  | O => None
  | S fuel' =>
      if negb (opt <? opt_end) then Some po else
      do kind <- rd1 frame opt;
      if kind =? 1 then opt_loop fuel' frame (opt + 1) opt_end po else
      if kind =? 0 then Some po else
      if opt_end <? opt + 2 then Some po else
      do olen <- rd1 frame (opt + 1);
      if (olen <? 2) || (opt_end <? opt + olen) then Some po else
      do po' <-
        (if (kind =? 3) && (olen =? 3) then
           do sh <- rd1 frame (opt + 2);
           Some (Po (po_mss po) (Some (if 14 <? sh then 14 else sh)) (po_sackok po) (po_ts po) (po_sack po))
         else if (kind =? 2) && (olen =? 4) then
           do b <- mread frame (opt + 2) 2;
           Some (if 0 <? rd16 b 0 then Po (Some (rd16 b 0)) (po_ws po) (po_sackok po) (po_ts po) (po_sack po) else po)
         else if (kind =? 4) && (olen =? 2) then
           Some (Po (po_mss po) (po_ws po) true (po_ts po) (po_sack po))
         else if (kind =? 5) && (10 <=? olen) && ((olen - 2) mod 8 =? 0) then
           do bs <- sack_loop (Z.to_nat ((olen - 2) / 8)) frame (opt + 2) (po_sack po);
           Some (Po (po_mss po) (po_ws po) (po_sackok po) (po_ts po) bs)
         else if (kind =? 8) && (olen =? 10) then
           do val <- rdm32 frame (opt + 2); do ecr <- rdm32 frame (opt + 6);
           Some (Po (po_mss po) (po_ws po) (po_sackok po) (Some (val, ecr)) (po_sack po))
         else Some po);
      opt_loop fuel' frame (opt + olen) opt_end po'
  end.

(** wolfip.c:3182-3263 tcp_parse_options *)
Definition tcp_parse_options (frame : list Z) (frame_len : Z) : option popts :=
  do hlen <- rd1 frame 46;
  let claimed := tcp_data_offset_bytes hlen - 20 in
  let available := frame_len - 54 in
  if (claimed <=? 0) || (available <=? 0) then Some po0 else
  let opt_len := if claimed <? available then claimed else available in
  opt_loop (S (Z.to_nat opt_len)) frame 54 (54 + opt_len) po0.

(** wolfip.c:3525-3528, 3878-3881: NOP padding; the length grows, so at most 3 turns. *)
Fixpoint pad_nop (fuel : nat) (o : list Z) (max_len : Z) : list Z :=
  match fuel with
  | O => o
  | S f => if negb (zlen o mod 4 =? 0) && (zlen o <? max_len) then pad_nop f (o ++ [1]) max_len else o
  end.

Definition block_bytes (b : Z * Z) : list Z := be32 (fst b) ++ be32 (snd b).

(** wolfip.c:3485-3530 tcp_build_ack_options: the bytes written at [opt].
    [ts] = Some (last_tick, last_ts in host order) when timestamps are on;
    [sack] the advertised blocks (rx_sack[0 .. rx_sack_count)). *)
Definition tcp_build_ack_options (ts : option (Z * Z)) (sack_permitted : bool) (sack : list (Z * Z)) (max_len : Z) : list Z :=
  match ts with
  | Some (tick, ecr) =>
      if max_len <? 10 then [] else
      let o := [8; 10] ++ be32 (u32 tick) ++ be32 ecr in
      let o := if sack_permitted && (0 <? zlen sack) && (u8 (zlen o + 10) <=? max_len) then
                 let fit := u8 ((max_len - zlen o - 2) / 8) in
                 let blocks := if fit <? zlen sack then fit else zlen sack in
                 if 0 <? blocks then o ++ [5; u8 (2 + blocks * 8)] ++ flat_map block_bytes (firstn (Z.to_nat blocks) sack) else o
               else o in
      pad_nop 4 o max_len
  | None =>
      let o := if sack_permitted && (0 <? zlen sack) && (u8 10 <=? max_len) then
                 let fit := u8 ((max_len - 2) / 8) in
                 let blocks := if fit <? zlen sack then fit else zlen sack in
                 if 0 <? blocks then [5; u8 (2 + blocks * 8)] ++ flat_map block_bytes (firstn (Z.to_nat blocks) sack) else []
               else [] in
      pad_nop 4 o max_len
  end.

(** wolfip.c:3854-3877: an optional option is added when its rounded-up length fits. *)
Definition add_opt (o : list Z) (inc : bool) (bytes : list Z) (max_len : Z) : list Z :=
  if inc && (u8 (4 * ((zlen o + zlen bytes + 3) / 4)) <=? max_len) then o ++ bytes else o.
(** wolfip.c:3826-3831: the room for options. *)
Definition syn_max_opt_len (ip_mtu : Z) : Z := if 40 <? ip_mtu then (if 40 <? ip_mtu - 40 then 40 else ip_mtu - 40) else 0.
(** wolfip.c:3842-3881 tcp_send_syn: the option bytes. *)
Definition tcp_build_syn_options (ip_mtu mss : Z) (ws : bool) (shift : Z) (sack ts : bool) (tick ecr : Z) : list Z :=
  let max := syn_max_opt_len ip_mtu in
  let o := if 4 <=? max then [2; 4] ++ be16 (u16 mss) else [] in
  let o := add_opt o ws [3; 3; shift] max in
  let o := add_opt o sack [4; 2] max in
  let o := add_opt o ts ([8; 10] ++ be32 (u32 tick) ++ be32 ecr ++ [1; 1]) max in
  pad_nop 4 o max.
(** wolfip.c:3568, 3882: the header-length byte. *)
Definition hlen_byte (opt_len : Z) : Z := Z.land (Z.shiftl (20 + opt_len) 2) 240.
(** wolfip.c:6661, 6682-6690: options of a data segment. *)
Definition data_options (ts : option (Z * Z)) : list Z :=
  match ts with Some (tick, ecr) => [8; 10] ++ be32 (u32 tick) ++ be32 ecr ++ [1; 0] | None => [] end.
