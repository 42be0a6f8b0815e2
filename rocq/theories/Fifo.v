(** Model of the wolfIP packet FIFO (socket TX buffers, datagram RX buffers).
    Source: /repo/src/wolfip.c lines 206-551. *)
From Verif Require Import Base.

(** struct pkt_desc, wolfip.c:206-210; sizeof = 16 (PACKED, four uint32_t). *)
Record pkt_desc := { d_pos : Z; d_len : Z; d_flags : Z; d_time : Z }.
Definition DESC : Z := 16.

(** In-memory image of a uint32_t.  The code never looks at these bytes other
    than through the struct, so the byte order is immaterial; little endian
    is used. *)
Definition le32 (x : Z) : list Z :=
  [x mod 256; (x / 256) mod 256; (x / 65536) mod 256; (x / 16777216) mod 256].
Definition unle32 (b : list Z) : Z :=
  nth 0 b 0 + 256 * nth 1 b 0 + 65536 * nth 2 b 0 + 16777216 * nth 3 b 0.
Definition enc_desc (d : pkt_desc) : list Z :=
  le32 (d_pos d) ++ le32 (d_len d) ++ le32 (d_flags d) ++ le32 (d_time d).
Definition dec_desc (b : list Z) : pkt_desc :=
  {| d_pos := unle32 (firstn 4 b); d_len := unle32 (firstn 4 (skipn 4 b));
     d_flags := unle32 (firstn 4 (skipn 8 b)); d_time := unle32 (firstn 4 (skipn 12 b)) |}.

(** struct fifo, wolfip.c:212-217.  [f_data] is the storage f->data points to. *)
Record fifo := { f_head : Z; f_tail : Z; f_size : Z; f_hwrap : Z;
                 f_last_pos : Z; f_last_valid : Z; f_data : list Z }.

Definition set_tail_wrap (f : fifo) (tail hwrap : Z) : fifo :=
  {| f_head := f_head f; f_tail := tail; f_size := f_size f; f_hwrap := hwrap;
     f_last_pos := f_last_pos f; f_last_valid := f_last_valid f; f_data := f_data f |}.

(** fifo_is_empty, wolfip.c:219-222. *)
Definition fifo_is_empty (f : fifo) : bool := (f_head f =? f_tail f) && (f_hwrap f =? 0).

(** fifo_align_head_pos, wolfip.c:224-231. *)
Definition fifo_align_head_pos (head size : Z) : Z :=
  let head := if head mod 4 =? 0 then head else u32 (head + (4 - head mod 4)) in
  if size <=? head then 0 else head.

(** fifo_align_tail, wolfip.c:233-254.  The five statements in order.
    [tail + sizeof] is size_t arithmetic and cannot wrap. *)
Definition fifo_align_tail (f : fifo) : fifo :=
  if fifo_is_empty f then f else
  let tail := f_tail f in
  let hw := f_hwrap f in
  let size := f_size f in
  let tail := if tail mod 4 =? 0 then tail else u32 (tail + (4 - tail mod 4)) in
  let '(tail, hw) := if negb (hw =? 0) && (hw <=? tail) then (0, 0) else (tail, hw) in
  let '(tail, hw) := if negb (hw =? 0) && (tail <? hw) && (hw <? tail + DESC) then (0, 0) else (tail, hw) in
  let tail := if (0 <? size) && (size <=? tail) then tail mod size else tail in
  let tail := if size <? tail + DESC then 0 else tail in
  set_tail_wrap f tail hw.

(** fifo_init, wolfip.c:264-273. *)
Definition fifo_init (data : list Z) (size : Z) : fifo :=
  {| f_head := 0; f_tail := 0; f_hwrap := 0; f_size := size;
     f_last_pos := 0; f_last_valid := 0; f_data := data |}.

(** fifo_space, wolfip.c:276-291. *)
Definition fifo_space (f : fifo) : Z :=
  if fifo_is_empty f then f_size f
  else if f_head f =? f_tail f then 0
  else if negb (f_hwrap f =? 0) then
    (if f_head f <? f_tail f then f_tail f - f_head f else 0)
  else if f_tail f <=? f_head f then f_size f - (f_head f - f_tail f)
  else f_tail f - f_head f.

(** fifo_peek, wolfip.c:293-306.  Returns the position of the descriptor (the
    pointer minus f->data), [None] for NULL, and the updated fifo. *)
Definition fifo_peek (f : fifo) : fifo * option Z :=
  if fifo_is_empty f then (f, None) else
  let f := fifo_align_tail f in
  if fifo_is_empty f then (f, None) else (f, Some (f_tail f)).

(** Load of the descriptor a pointer points to: *desc.  [None] = out of bounds. *)
Definition load_desc (f : fifo) (pos : Z) : option pkt_desc :=
  do b <- mread (f_data f) pos DESC; Some (dec_desc b).
(** The payload following a descriptor: data + pos + sizeof, len bytes. *)
Definition load_payload (f : fifo) (pos len : Z) : option (list Z) :=
  mread (f_data f) (pos + DESC) len.

(** fifo_next, wolfip.c:308-345; [pos] is desc - f->data for a non-NULL
    desc.  The alignment loop [while ((pos+len) % 4) len++] is written in
    closed form.  Outer [None] = UB. *)
Definition fifo_next (f : fifo) (pos : Z) : option (option Z) :=
  if f_size f <=? pos then Some None else
  do d <- load_desc f pos;
  if f_size f - DESC <? d_len d then Some None else
  let len := DESC + d_len d in
  let len := len + (4 - (pos + len) mod 4) mod 4 in
  if f_size f - pos <? len then Some None else
  let next_pos := pos + len in
  let next_pos :=
    if negb (f_hwrap f =? 0) && (pos <? f_hwrap f) && (f_hwrap f <=? next_pos) then 0
    else if f_size f <=? next_pos then 0 else next_pos in
  let stop_pos := fifo_align_head_pos (f_head f) (f_size f) in
  let stop_pos := if negb (f_hwrap f =? 0) && (stop_pos =? f_hwrap f) then 0 else stop_pos in
  if next_pos =? stop_pos then Some None else Some (Some next_pos).

(** fifo_len, wolfip.c:347-363. *)
Definition fifo_len (f : fifo) : fifo * Z :=
  let f := fifo_align_tail f in
  (f, if fifo_is_empty f then 0
      else if f_tail f =? f_head f then f_size f
      else if f_head f <? f_tail f then
        (if 0 <? f_hwrap f then f_hwrap f - f_tail f + f_head f
         else f_size f - (f_tail f - f_head f))
      else f_head f - f_tail f).

(** The space computation shared textually by fifo_push (wolfip.c:376-391) and
    fifo_can_push_len (wolfip.c:450-466). *)
Definition push_space (head tail h_wrap size : Z) : Z :=
  if (head =? tail) && (h_wrap =? 0) then size
  else if head =? tail then 0
  else if negb (h_wrap =? 0) then (if head <? tail then tail - head else 0)
  else if tail <=? head then size - (head - tail)
  else tail - head.

(** fifo_push, wolfip.c:365-429.  Outer [None] = UB (memcpy out of bounds);
    [Some (f', r)]: r is the C return value (0 or -1). *)
Definition fifo_push (f : fifo) (data : list Z) : option (fifo * Z) :=
  let len := zlen data in
  let needed := u32 (DESC + len) in
  let size := f_size f in
  let tail := f_tail f in
  let h_wrap := f_hwrap f in
  let head := fifo_align_head_pos (f_head f) size in
  if push_space head tail h_wrap size <? needed then Some (f, -1) else
  let head := if negb (h_wrap =? 0) && (head =? h_wrap) then 0 else head in
  let place :=
    if (h_wrap =? 0) && (tail <=? head) then
      if size - head <? needed then
        if tail <? needed then None else Some (0, head)
      else Some (head, h_wrap)
    else Some (head, h_wrap) in
  match place with
  | None => Some (f, -1)
  | Some (head, h_wrap) =>
    if (if negb (h_wrap =? 0) then tail <? u32 (head + needed) else size <? u32 (head + needed))
    then Some (f, -1) else
    let desc := {| d_pos := head; d_len := len; d_flags := 0; d_time := 0 |} in
    do m1 <- mwrite (f_data f) head (enc_desc desc);
    do m2 <- mwrite m1 (head + DESC) data;
    let hd := head + DESC + len in
    let '(hd, h_wrap) :=
      if hd =? size then (0, if h_wrap =? 0 then size else h_wrap) else (hd, h_wrap) in
    Some ({| f_head := hd; f_tail := tail; f_size := size; f_hwrap := h_wrap;
             f_last_pos := d_pos desc; f_last_valid := 1; f_data := m2 |}, 0)
  end.

(** fifo_can_push_len, wolfip.c:433-486 (non-NULL argument). *)
Definition fifo_can_push_len (f : fifo) (len : Z) : bool :=
  let needed := u32 (DESC + len) in
  let size := f_size f in
  if size <? needed then false else
  let head := fifo_align_head_pos (f_head f) size in
  let tail := f_tail f in
  let h_wrap := f_hwrap f in
  if push_space head tail h_wrap size <? needed then false else
  let head := if negb (h_wrap =? 0) && (head =? h_wrap) then 0 else head in
  let place :=
    if (h_wrap =? 0) && (tail <=? head) then
      if size - head <? needed then
        if tail <? needed then None else Some (0, head)
      else Some (head, h_wrap)
    else Some (head, h_wrap) in
  match place with
  | None => false
  | Some (head, h_wrap) =>
    if negb (h_wrap =? 0) then negb (tail <? u32 (head + needed))
    else negb (size <? u32 (head + needed))
  end.

(** fifo_max_push_payload, wolfip.c:489-509.  The loop is recursion on fuel;
    33 iterations suffice for 32-bit bounds, exhaustion returns -1 (never a
    legal C result), excluded by the theorems. *)
Fixpoint max_push_loop (fuel : nat) (f : fifo) (base lo hi best : Z) : Z :=
  match fuel with
  | O => -1
  | S fuel =>
    if lo <=? hi then
      let mid := lo + (hi - lo) / 2 in
      if fifo_can_push_len f (u32 (base + mid))
      then max_push_loop fuel f base (mid + 1) hi mid
      else max_push_loop fuel f base lo (mid - 1) best
    else best
  end.
Definition fifo_max_push_payload (f : fifo) (base cap : Z) : Z :=
  if cap =? 0 then 0 else max_push_loop 34 f base 1 cap 0.

(** fifo_desc_budget, wolfip.c:520-525. *)
Definition fifo_desc_budget (f : fifo) : Z :=
  if f_size f <? DESC then 1 else f_size f / DESC + 2.

(** fifo_pop, wolfip.c:528-551.  Outer [None] = UB; inner option is the
    returned descriptor position (NULL = [None]). *)
Definition fifo_pop (f : fifo) : option (fifo * option Z) :=
  if fifo_is_empty f then Some (f, None) else
  let f := fifo_align_tail f in
  if fifo_is_empty f then Some (f, None) else
  let pos := f_tail f in
  do d <- load_desc f pos;
  let tail := u32 (pos + DESC + d_len d) in
  let hw := f_hwrap f in
  let '(tail, hw) := if negb (hw =? 0) && (hw <=? tail) then (tail - hw, 0) else (tail, hw) in
  let hw := if tail =? f_head f then 0 else hw in
  let tail := if f_size f <=? tail then tail mod f_size f else tail in
  let f1 := set_tail_wrap f tail hw in
  let f2 := if fifo_is_empty f1 then
    {| f_head := f_head f1; f_tail := f_tail f1; f_size := f_size f1; f_hwrap := f_hwrap f1;
       f_last_pos := f_last_pos f1; f_last_valid := 0; f_data := f_data f1 |} else f1 in
  Some (f2, Some pos).

(** Contents of the entry a descriptor pointer designates. *)
Record entry := { en_flags : Z; en_time : Z; en_data : list Z }.
Definition load_entry (f : fifo) (pos : Z) : option entry :=
  do d <- load_desc f pos;
  do b <- load_payload f pos (d_len d);
  Some {| en_flags := d_flags d; en_time := d_time d; en_data := b |}.

(** The descriptor walk idiom used by the TCP code, e.g. wolfip.c:4095-4114 and
    5011-5040: desc = fifo_peek(); guard = fifo_desc_budget(); while (desc &&
    guard-- > 0) { ...; desc = fifo_next(); }.  Returns the visited entries. *)
Fixpoint walk_loop (guard : nat) (f : fifo) (desc : option Z) : option (list entry) :=
  match guard, desc with
  | S guard, Some pos =>
    do e <- load_entry f pos;
    do nx <- fifo_next f pos;
    do rest <- walk_loop guard f nx;
    Some (e :: rest)
  | _, _ => Some []
  end.
Definition fifo_walk (f : fifo) : option (fifo * list entry) :=
  let '(f, desc) := fifo_peek f in
  do l <- walk_loop (Z.to_nat (fifo_desc_budget f)) f desc;
  Some (f, l).

(** Writes made through a descriptor pointer by the TCP sender: the flags and
    time_sent fields of the descriptor and the frame bytes are rewritten in
    place, the length is not (e.g. wolfip.c:11288-11450 flush_tcp_tx). *)
Definition fifo_update (f : fifo) (pos flags time : Z) (data : list Z) : option fifo :=
  do d <- load_desc f pos;
  do m1 <- mwrite (f_data f) pos (enc_desc {| d_pos := d_pos d; d_len := d_len d;
                                              d_flags := u32 flags; d_time := u32 time |});
  do m2 <- mwrite m1 (pos + DESC) data;
  Some {| f_head := f_head f; f_tail := f_tail f; f_size := f_size f; f_hwrap := f_hwrap f;
          f_last_pos := f_last_pos f; f_last_valid := f_last_valid f; f_data := m2 |}.
