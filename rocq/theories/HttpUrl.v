(** HTTP percent-decoding and space-encoding, in place.
    Source: /repo/src/http/httpd.c:231-297.
    [m] is the memory the string lives in (the string starts at index 0); every
    access is checked, [None] is an out-of-bounds access. *)
From Verif Require Import Base.

(** memchr(m + pos, c, n): index in [m] of the first [c]. *)
Fixpoint find_byte (l : list Z) (c : Z) (i : Z) : option Z :=
  match l with [] => None | b :: l' => if b =? c then Some i else find_byte l' c (i + 1) end.
Definition memchr (m : list Z) (pos n c : Z) : option (option Z) :=
  do bs <- mread m pos n; Some (find_byte bs c pos).
(** memmove(m + dst, m + src, n) *)
Definition memmove (m : list Z) (dst src n : Z) : option (list Z) :=
  do bs <- mread m src n; mwrite m dst bs.
Definition rd1 (m : list Z) (i : Z) : option Z := do bs <- mread m i 1; Some (nth 0 bs 0).

(** httpd.c:231-239 http_hex_value ([tolower] in the C locale) *)
Definition tolower (c : Z) : Z := if (65 <=? c) && (c <=? 90) then c + 32 else c.
Definition http_hex_value (c : Z) : Z :=
  if (48 <=? c) && (c <=? 57) then c - 48
  else let c := tolower c in if (97 <=? c) && (c <=? 102) then 10 + (c - 97) else -1.

(** httpd.c:241-272 http_url_decode: memory afterwards and return value.
    [fuel] bounds the loop ([p] grows by at least 1 per turn). *)
Fixpoint decode_loop (fuel : nat) (m : list Z) (p e len : Z) : option (list Z * Z) :=
  match fuel with
  | O => Some (m, len)
  | S fuel =>
    if p <? e then
      do r <- memchr m p (e - p) 37;
      match r with
      | None => Some (m, len)
      | Some q =>
          if e <=? q + 2 then Some (m, -1) else
          do h <- rd1 m (q + 1); do l <- rd1 m (q + 2);
          let hi := http_hex_value h in let lo := http_hex_value l in
          if (hi <? 0) || (lo <? 0) then Some (m, -2) else
          do m1 <- mwrite m q [Z.lor (Z.shiftl hi 4) lo];
          do m2 <- memmove m1 (q + 1) (q + 3) (e - (q + 3));
          decode_loop fuel m2 (q + 1) (e - 2) (len - 2)
      end
    else Some (m, len)
  end.
Definition http_url_decode (m : list Z) (len : Z) : option (list Z * Z) :=
  decode_loop (Z.to_nat len) m 0 len len.

(** httpd.c:274-297 http_url_encode *)
Fixpoint encode_loop (fuel : nat) (m : list Z) (p len mx : Z) : option (list Z * Z) :=
  let finish := if mx <=? len then Some (m, -1) else do m' <- mwrite m len [0]; Some (m', len) in
  match fuel with
  | O => finish
  | S fuel =>
    if p <? len then
      do r <- memchr m p (len - p) 32;
      match r with
      | None => finish
      | Some q =>
          if mx <=? len + 2 then Some (m, -1) else
          do m1 <- memmove m (q + 3) (q + 1) (len - (q + 1));
          do m2 <- mwrite m1 q [37]; do m3 <- mwrite m2 (q + 1) [50]; do m4 <- mwrite m3 (q + 2) [48];
          encode_loop fuel m4 (q + 3) (len + 2) mx
      end
    else finish
  end.
Definition http_url_encode (m : list Z) (len mx : Z) : option (list Z * Z) :=
  encode_loop (Z.to_nat len) m 0 len mx.
