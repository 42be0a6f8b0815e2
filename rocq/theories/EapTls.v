(** EAP-TLS fragmentation and reassembly.
    Source: /repo/src/supplicant/eap_tls.c:17-212 (io_reset, rx_fragment,
    tx_fragment, build_ack), /repo/src/supplicant/eap_tls_engine.c:33-101 (IORecv,
    IOSend callbacks), /repo/src/supplicant/supplicant.c:260-299, 483-543 (EAP-TLS
    requests, with the TLS library as an oracle).
    [None] is an access outside a buffer. *)
From Verif Require Import Base HttpUrl.

(** WOLFIP_SUPPLICANT_EAP_FRAG_SIZE, eap_tls.h:61 *)
Definition frag_size : Z := 2048.

(** eap_tls.h:74-89 struct eap_tls_io. [rx_buf]/[tx_buf] are the first rx_filled /
    tx_filled bytes of the arrays (the bytes after those are never read). *)
Record io := mkIo { rx_buf : list Z; rx_total : Z; rx_drained : Z; rx_complete : bool;
                    tx_buf : list Z; tx_drained : Z; tx_first : bool }.
(** eap_tls.c:17-24 *)
Definition io_reset : io := mkIo [] 0 0 false [] 0 true.

(** eap_tls.c:26-32 rd32_be / 34-40 wr32_be *)
Definition rd32_be (m : list Z) (o : Z) : option Z :=
  do a <- rd1 m o; do b <- rd1 m (o + 1); do c <- rd1 m (o + 2); do d <- rd1 m (o + 3);
  Some (16777216 * a + 65536 * b + 256 * c + d).
Definition wr32_be (v : Z) : list Z := [u8 (v / 16777216); u8 (v / 65536); u8 (v / 256); u8 v].

Definition flag (f bit : Z) : bool := negb (Z.land f bit =? 0).

(** memcpy(buf + filled, src, n) into an array of frag_size bytes. *)
Definition buf_append (buf src : list Z) : option (list Z) :=
  if zlen buf + zlen src <=? frag_size then Some (buf ++ src) else None.

(** eap_tls.c:42-126 eap_tls_rx_fragment: new state and return value *)
Definition rx_fragment (s : io) (d : list Z) : option (io * Z) :=
  let len := zlen d in
  if len <? 1 then Some (s, -1) else
  do flags <- rd1 d 0;
  (* :62-72 *)
  let s := if rx_complete s then mkIo [] 0 0 false (tx_buf s) (tx_drained s) (tx_first s) else s in
  if flag flags 32 then Some (s, 1) else
  (* :81-101 *)
  do r <- (if flag flags 128 then
             if len <? 5 then Some (s, 5, true) else
             do total <- rd32_be d 1;
             if rx_total s =? 0 then
               if (frag_size <? total) || (total <? zlen (rx_buf s)) then Some (s, 5, true)
               else Some (mkIo (rx_buf s) total (rx_drained s) (rx_complete s) (tx_buf s) (tx_drained s) (tx_first s), 5, false)
             else Some (s, 5, false)
           else Some (s, 1, false));
  let '(s, off, bad) := r in
  if bad : bool then Some (s, -1) else
  let n := len - off in
  (* :103-114 *)
  if (0 <? n) && ((frag_size <? zlen (rx_buf s) + n) || (negb (rx_total s =? 0) && (rx_total s <? zlen (rx_buf s) + n))) then Some (s, -1) else
  do src <- mread d off n;
  do buf <- buf_append (rx_buf s) src;
  (* :116-124 *)
  let last := negb (flag flags 64) in
  let total := if last && (rx_total s =? 0) then zlen buf else rx_total s in
  Some (mkIo buf total (rx_drained s) (if last then true else rx_complete s) (tx_buf s) (tx_drained s) (tx_first s), 0).

(** eap_tls.c:128-200 eap_tls_tx_fragment: the payload written and "more", or an error *)
Definition tx_fragment (s : io) (mtu : Z) : option (io * option (list Z * bool)) :=
  if mtu <? 1 then Some (s, None) else
  if zlen (tx_buf s) <? tx_drained s then Some (s, None) else
  let remaining := zlen (tx_buf s) - tx_drained s in
  let first := tx_first s in
  let off := if first && (mtu <? remaining + 1) then 5 else 1 in
  if mtu <? off then Some (s, None) else
  let take := if remaining <? mtu - off then remaining else mtu - off in
  let more := take <? remaining in
  if (take =? 0) && more then Some (s, None) else
  let flags := (if first && more then 128 else 0) + (if more then 64 else 0) in
  do src <- mread (tx_buf s) (tx_drained s) take;
  (* [out]: mtu bytes provided by the caller, off + take <= mtu written; when off = 5
     bytes 1..4 are written iff the L flag is set, else they keep what was there *)
  let head := if first && more then flags :: wr32_be remaining else flags :: repeat 0 (Z.to_nat (off - 1)) in
  let out := head ++ src in
  let s' := if more then mkIo (rx_buf s) (rx_total s) (rx_drained s) (rx_complete s) (tx_buf s) (tx_drained s + take) false
            else mkIo (rx_buf s) (rx_total s) (rx_drained s) (rx_complete s) [] 0 true in
  Some (s', Some (out, more)).

(** eap_tls_engine.c:33-65 IORecv: [None] WANT_READ / error, [Some bytes] what is handed to TLS *)
Definition io_recv (s : io) (sz : Z) : option (io * option (list Z)) :=
  if sz <=? 0 then Some (s, None) else
  if zlen (rx_buf s) <? rx_drained s then Some (s, None) else
  let available := zlen (rx_buf s) - rx_drained s in
  if available =? 0 then Some (s, None) else
  let take := if available <? sz then available else sz in
  do out <- mread (rx_buf s) (rx_drained s) take;
  let d := rx_drained s + take in
  Some (if rx_complete s && (d =? zlen (rx_buf s))
        then mkIo [] 0 0 false (tx_buf s) (tx_drained s) (tx_first s)
        else mkIo (rx_buf s) (rx_total s) d (rx_complete s) (tx_buf s) (tx_drained s) (tx_first s), Some out).

(** eap_tls_engine.c:69-101 IOSend: number of bytes taken, -1 for WANT_WRITE / error *)
Definition io_send (s : io) (b : list Z) : option (io * Z) :=
  if zlen b <=? 0 then Some (s, -1) else
  if frag_size <? zlen (tx_buf s) then Some (s, -1) else
  let cap := frag_size - zlen (tx_buf s) in
  if cap =? 0 then Some (s, -1) else
  let n := if cap <? zlen b then cap else zlen b in
  do src <- mread b 0 n;
  do buf <- buf_append (tx_buf s) src;
  Some (mkIo (rx_buf s) (rx_total s) (rx_drained s) (rx_complete s) buf (tx_drained s) (tx_first s), n).

(** Histories of one endpoint. *)
Inductive eop := ERx (d : list Z) | ERecv (sz : Z) | ESend (b : list Z) | ETx (mtu : Z).
Inductive eres := RRx (rc : Z) | RRecv (b : option (list Z)) | RSend (n : Z) | RTx (p : option (list Z * bool)).
Definition estep (s : io) (o : eop) : option (io * eres) :=
  match o with
  | ERx d => do (s, r) <- rx_fragment s d; Some (s, RRx r)
  | ERecv sz => do (s, r) <- io_recv s sz; Some (s, RRecv r)
  | ESend b => do (s, r) <- io_send s b; Some (s, RSend r)
  | ETx mtu => do (s, r) <- tx_fragment s mtu; Some (s, RTx r)
  end.
Fixpoint erun (s : io) (os : list eop) : option (io * list eres) :=
  match os with
  | [] => Some (s, [])
  | o :: os => do (s, r) <- estep s o; do (s, rs) <- erun s os; Some (s, r :: rs)
  end.
