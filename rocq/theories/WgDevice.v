(** wolfGuard: the device.  Models src/wolfguard/wg_noise.c (handshake, session
    rotation), wg_packet.c (send, staging, receive dispatch), wg_timers.c,
    wg_cookie.c and the public API of wolfguard.c, function by function.

    Simplifications, for the whole file.
    - The wolfCrypt primitives are the fields of a record [crypto]; every
      theorem quantifies over it.  Hash and HMAC are total, the DH and AEAD
      calls may fail.
    - The random generator is the list [g_rng] of blocks it will return, given
      afresh with each call; an empty list is a generator failure.
    - Fixed-size structures are lists of bytes; a message is the concatenation
      of its fields, which is the C layout when the primitives return outputs of
      their documented lengths (WgToy.crypto_ok).
    - wolfIP_sock_sendto and wolfIP_recv_ex are recorded as events.  Both are
      the last thing their caller does with the peer's keys, so calls the stack
      makes back into wolfguard_output are calls that come next in the history.
    - IP words and ports are the raw network-order words of the code, on a
      little-endian machine. *)
From Verif Require Import Base ByteOrder Arp WgAllowedIps WgCounter.

(** wg_crypto.c:18-396: the primitives, declared in wolfguard.h. *)
Record crypto := mkCrypto {
  c_hash : list Z -> list Z;                                  (* wg_hash; wg_hash2 is the hash of the concatenation *)
  c_hmac : list Z -> list Z -> list Z;                        (* wg_hmac key input; wg_mac is the same *)
  c_pub  : list Z -> option (list Z);                         (* public key of a private key *)
  c_dh   : list Z -> list Z -> option (list Z);               (* wg_dh private public *)
  c_enc  : list Z -> Z -> list Z -> list Z -> option (list Z);(* wg_aead_encrypt key counter plaintext aad *)
  c_dec  : list Z -> Z -> list Z -> list Z -> option (list Z);
  c_xenc : list Z -> list Z -> list Z -> list Z -> option (list Z); (* wg_xaead_encrypt key nonce plaintext aad *)
  c_xdec : list Z -> list Z -> list Z -> list Z -> option (list Z)
}.

Definition zbytes (n : nat) : list Z := repeat 0 n.

(** Little-endian words in messages (wg_le32_encode, wg_le64_encode). *)
Definition le32 (v : Z) : list Z := [u8 v; u8 (v / 256); u8 (v / 65536); u8 (v / 16777216)].
Definition le64 (v : Z) : list Z := le32 (u32 v) ++ le32 (u32 (v / 4294967296)).
Definition rdle32 (b : list Z) : Z := load_le32 b.
Definition rdle64 (b : list Z) : Z := load_le32 b + 4294967296 * load_le32 (skipn 4 b).
Definition be64 (v : Z) : list Z := be32 (u32 (v / 4294967296)) ++ be32 (u32 v).

(** wolfguard.h:134-152 *)
Definition REKEY_AFTER_MESSAGES := 1152921504606846976.
Definition REKEY_AFTER_MS := 120000.
Definition REJECT_AFTER_MS := 180000.
Definition REKEY_TIMEOUT_MS := 5000.
Definition KEEPALIVE_MS := 10000.
Definition MAX_ATTEMPTS := 18.
Definition COOKIE_AGE_MS := 120000.
Definition LINK_MTU := 1536.
Definition STAGED := 16.
Definition MAX_PEERS := 8.

(** wolfguard.h:155-158, as the bytes of the string literals. *)
Definition CONSTRUCTION : list Z :=
  [78;111;105;115;101;95;73;75;112;115;107;50;95;83;69;67;80;50;53;54;82;49;95;65;101;115;71;99;109;95;83;72;65;50;53;54].
Definition IDENTIFIER : list Z :=
  [87;111;108;102;71;117;97;114;100;32;118;49;32;105;110;102;111;64;119;111;108;102;115;115;108;46;99;111;109].
Definition LABEL_MAC1 : list Z := [109;97;99;49;45;45;45;45].
Definition LABEL_COOKIE : list Z := [99;111;111;107;105;101;45;45].

(** wolfguard.h:205-211 enum wg_handshake_state *)
Inductive hstate := Zeroed | CreatedInit | ConsumedInit | CreatedResp | ConsumedResp.
Definition hs_eqb (a b : hstate) : bool :=
  match a, b with
  | Zeroed, Zeroed | CreatedInit, CreatedInit | ConsumedInit, ConsumedInit
  | CreatedResp, CreatedResp | ConsumedResp, ConsumedResp => true
  | _, _ => false
  end.

(** wolfguard.h:213-224 struct wg_handshake *)
Record hs := mkHs {
  h_state : hstate; h_eph : list Z; h_rstatic : list Z; h_reph : list Z;
  h_ss : list Z; h_psk : list Z; h_hash : list Z; h_ck : list Z;
  h_ridx : Z; h_lidx : Z
}.
Definition hs_zero := mkHs Zeroed (zbytes 32) (zbytes 65) (zbytes 65) (zbytes 32) (zbytes 32) (zbytes 32) (zbytes 32) 0 0.

(** wolfguard.h:228-244 struct wg_keypair (wgrx is the receive window). *)
Record kp := mkKp {
  k_skey : list Z; k_sbirth : Z; k_svalid : bool;
  k_rkey : list Z; k_rbirth : Z; k_rvalid : bool;
  k_sctr : Z; k_rx : wgrx; k_lidx : Z; k_ridx : Z; k_init : bool
}.
Definition kp_zero := mkKp (zbytes 32) 0 false (zbytes 32) 0 false 0 wgrx_init 0 0 false.

(** wolfguard.h:246-252 struct wg_keypairs: pointers are slot numbers. *)
Record kps := mkKps { s_cur : option nat; s_prev : option nat; s_next : option nat; s_slots : list kp }.
Definition kps_zero := mkKps None None None (repeat kp_zero 3).

(** wolfguard.h:256-272 struct wg_cookie, struct wg_cookie_checker *)
Record cookie := mkCookie {
  c_birth : Z; c_valid : bool; c_cookie : list Z; c_last1 : list Z; c_sent1 : bool;
  c_deckey : list Z; c_mac1key : list Z
}.
Definition cookie_zero := mkCookie 0 false (zbytes 32) (zbytes 32) false (zbytes 32) (zbytes 32).
Record checker := mkChecker { x_secret : list Z; x_birth : Z; x_enckey : list Z; x_mac1key : list Z }.

(** wolfguard.h:285-321 struct wg_peer.  [p_arr] is staged_packets together with
    staged_packet_lens. *)
Record peer := mkPeer {
  p_pub : list Z; p_hs : hs; p_kps : kps; p_cookie : cookie;
  p_ts : list Z; p_lastinit : Z; p_ip : Z; p_port : Z;
  p_arr : list (list Z); p_cnt : Z;
  p_tinit : Z; p_tsent : Z; p_trecv : Z; p_tka : Z; p_tdone : Z;
  p_jit : Z; p_att : Z; p_pki : Z; p_rxb : Z; p_txb : Z; p_active : bool
}.
Definition peer_zero := mkPeer (zbytes 65) hs_zero kps_zero cookie_zero (zbytes 12) 0 0 0
  (repeat [] 16) 0 0 0 0 0 0 0 0 0 0 0 false.

(** wolfguard.h:325-356 struct wg_device without the peers. *)
Record gdev := mkG {
  g_priv : list Z; g_pub : list Z; g_aips : list aip; g_chk : checker;
  g_load : bool; g_hpc : Z; g_now : Z; g_rng : list (list Z)
}.

(** What a device does.
    [ENew i sk rk t]: a session with peer [i] is established at time [t].
    [EEnc i sk c pt t]: the transport AEAD encrypts [pt] under key [sk], counter [c].
    [EUdp ip port b]: datagram [b] is handed to the outer socket.
    [EAcc i rk c pt t]: a transport message of peer [i] is accepted.
    [EInj i pt]: [pt] enters the stack through wg0.
    [EInit i t b]: the handshake initiation [b] for peer [i] is created and sent.
    [EHello i ts t]: an initiation of peer [i] with timestamp [ts] is consumed.
    [EFail i]: an initiation for peer [i] was begun and could not be created.
    [EOut i pkt]: the stack hands [pkt] to wolfguard_output and it is routed to
    peer [i]. *)
Inductive ev :=
| ENew (i : Z) (sk rk : list Z) (t : Z)
| EEnc (i : Z) (sk : list Z) (c : Z) (pt : list Z) (t : Z)
| EUdp (ip port : Z) (b : list Z)
| EAcc (i : Z) (rk : list Z) (c : Z) (pt : list Z) (t : Z)
| EInj (i : Z) (pt : list Z)
| EInit (i t : Z) (b : list Z)
| EHello (i : Z) (ts : list Z) (t : Z)
| EFail (i : Z)
| EOut (i : Z) (pkt : list Z).

(** Field updates. *)
Definition up_hs (p : peer) h := mkPeer (p_pub p) h (p_kps p) (p_cookie p) (p_ts p) (p_lastinit p) (p_ip p) (p_port p) (p_arr p) (p_cnt p) (p_tinit p) (p_tsent p) (p_trecv p) (p_tka p) (p_tdone p) (p_jit p) (p_att p) (p_pki p) (p_rxb p) (p_txb p) (p_active p).
Definition up_kps (p : peer) k := mkPeer (p_pub p) (p_hs p) k (p_cookie p) (p_ts p) (p_lastinit p) (p_ip p) (p_port p) (p_arr p) (p_cnt p) (p_tinit p) (p_tsent p) (p_trecv p) (p_tka p) (p_tdone p) (p_jit p) (p_att p) (p_pki p) (p_rxb p) (p_txb p) (p_active p).
Definition up_cookie (p : peer) c := mkPeer (p_pub p) (p_hs p) (p_kps p) c (p_ts p) (p_lastinit p) (p_ip p) (p_port p) (p_arr p) (p_cnt p) (p_tinit p) (p_tsent p) (p_trecv p) (p_tka p) (p_tdone p) (p_jit p) (p_att p) (p_pki p) (p_rxb p) (p_txb p) (p_active p).
Definition up_hello (p : peer) ts li := mkPeer (p_pub p) (p_hs p) (p_kps p) (p_cookie p) ts li (p_ip p) (p_port p) (p_arr p) (p_cnt p) (p_tinit p) (p_tsent p) (p_trecv p) (p_tka p) (p_tdone p) (p_jit p) (p_att p) (p_pki p) (p_rxb p) (p_txb p) (p_active p).
Definition up_ep (p : peer) ip port := mkPeer (p_pub p) (p_hs p) (p_kps p) (p_cookie p) (p_ts p) (p_lastinit p) ip port (p_arr p) (p_cnt p) (p_tinit p) (p_tsent p) (p_trecv p) (p_tka p) (p_tdone p) (p_jit p) (p_att p) (p_pki p) (p_rxb p) (p_txb p) (p_active p).
Definition up_stg (p : peer) a n := mkPeer (p_pub p) (p_hs p) (p_kps p) (p_cookie p) (p_ts p) (p_lastinit p) (p_ip p) (p_port p) a n (p_tinit p) (p_tsent p) (p_trecv p) (p_tka p) (p_tdone p) (p_jit p) (p_att p) (p_pki p) (p_rxb p) (p_txb p) (p_active p).
Definition up_tinit (p : peer) t a := mkPeer (p_pub p) (p_hs p) (p_kps p) (p_cookie p) (p_ts p) (p_lastinit p) (p_ip p) (p_port p) (p_arr p) (p_cnt p) t (p_tsent p) (p_trecv p) (p_tka p) (p_tdone p) (p_jit p) a (p_pki p) (p_rxb p) (p_txb p) (p_active p).
Definition up_tsent (p : peer) t x := mkPeer (p_pub p) (p_hs p) (p_kps p) (p_cookie p) (p_ts p) (p_lastinit p) (p_ip p) (p_port p) (p_arr p) (p_cnt p) (p_tinit p) t (p_trecv p) (p_tka p) (p_tdone p) (p_jit p) (p_att p) (p_pki p) (p_rxb p) x (p_active p).
Definition up_trecv (p : peer) t x := mkPeer (p_pub p) (p_hs p) (p_kps p) (p_cookie p) (p_ts p) (p_lastinit p) (p_ip p) (p_port p) (p_arr p) (p_cnt p) (p_tinit p) (p_tsent p) t (p_tka p) (p_tdone p) (p_jit p) (p_att p) (p_pki p) x (p_txb p) (p_active p).
Definition up_tka (p : peer) t := mkPeer (p_pub p) (p_hs p) (p_kps p) (p_cookie p) (p_ts p) (p_lastinit p) (p_ip p) (p_port p) (p_arr p) (p_cnt p) (p_tinit p) (p_tsent p) (p_trecv p) t (p_tdone p) (p_jit p) (p_att p) (p_pki p) (p_rxb p) (p_txb p) (p_active p).
Definition up_tdone (p : peer) t := mkPeer (p_pub p) (p_hs p) (p_kps p) (p_cookie p) (p_ts p) (p_lastinit p) (p_ip p) (p_port p) (p_arr p) (p_cnt p) (p_tinit p) (p_tsent p) (p_trecv p) (p_tka p) t (p_jit p) 0 (p_pki p) (p_rxb p) (p_txb p) (p_active p).
Definition up_jit (p : peer) j := mkPeer (p_pub p) (p_hs p) (p_kps p) (p_cookie p) (p_ts p) (p_lastinit p) (p_ip p) (p_port p) (p_arr p) (p_cnt p) (p_tinit p) (p_tsent p) (p_trecv p) (p_tka p) (p_tdone p) j (p_att p) (p_pki p) (p_rxb p) (p_txb p) (p_active p).
Definition up_rng (g : gdev) r := mkG (g_priv g) (g_pub g) (g_aips g) (g_chk g) (g_load g) (g_hpc g) (g_now g) r.
Definition up_chk (g : gdev) c := mkG (g_priv g) (g_pub g) (g_aips g) c (g_load g) (g_hpc g) (g_now g) (g_rng g).
Definition up_hpc (g : gdev) n := mkG (g_priv g) (g_pub g) (g_aips g) (g_chk g) (g_load g) n (g_now g) (g_rng g).
Definition up_aips (g : gdev) a := mkG (g_priv g) (g_pub g) a (g_chk g) (g_load g) (g_hpc g) (g_now g) (g_rng g).
Definition up_key (g : gdev) a b c := mkG a b (g_aips g) c (g_load g) (g_hpc g) (g_now g) (g_rng g).
Definition up_poll (g : gdev) l n := mkG (g_priv g) (g_pub g) (g_aips g) (g_chk g) l 0 n (g_rng g).
Definition hs_st (h : hs) s := mkHs s (h_eph h) (h_rstatic h) (h_reph h) (h_ss h) (h_psk h) (h_hash h) (h_ck h) (h_ridx h) (h_lidx h).
Definition hs_ch (h : hs) ck hash := mkHs (h_state h) (h_eph h) (h_rstatic h) (h_reph h) (h_ss h) (h_psk h) hash ck (h_ridx h) (h_lidx h).
Definition hs_eph (h : hs) e := mkHs (h_state h) e (h_rstatic h) (h_reph h) (h_ss h) (h_psk h) (h_hash h) (h_ck h) (h_ridx h) (h_lidx h).
Definition hs_reph (h : hs) e := mkHs (h_state h) (h_eph h) (h_rstatic h) e (h_ss h) (h_psk h) (h_hash h) (h_ck h) (h_ridx h) (h_lidx h).
Definition hs_idx (h : hs) r l := mkHs (h_state h) (h_eph h) (h_rstatic h) (h_reph h) (h_ss h) (h_psk h) (h_hash h) (h_ck h) r l.
Definition kp_ctr (k : kp) n := mkKp (k_skey k) (k_sbirth k) (k_svalid k) (k_rkey k) (k_rbirth k) (k_rvalid k) n (k_rx k) (k_lidx k) (k_ridx k) (k_init k).
Definition kp_inv (k : kp) := mkKp (k_skey k) (k_sbirth k) false (k_rkey k) (k_rbirth k) (k_rvalid k) (k_sctr k) (k_rx k) (k_lidx k) (k_ridx k) (k_init k).
Definition kp_rx (k : kp) w := mkKp (k_skey k) (k_sbirth k) (k_svalid k) (k_rkey k) (k_rbirth k) (k_rvalid k) (k_sctr k) w (k_lidx k) (k_ridx k) (k_init k).
Definition lset {A} (l : list A) (i : nat) (v : A) : list A := firstn i l ++ match skipn i l with [] => [] | _ :: t => v :: t end.
Definition slot (k : kps) (i : nat) : kp := nth i (s_slots k) kp_zero.
Definition up_slot (k : kps) i v := mkKps (s_cur k) (s_prev k) (s_next k) (lset (s_slots k) i v).
Definition oeqb (a b : option nat) : bool :=
  match a, b with Some x, Some y => Nat.eqb x y | None, None => true | _, _ => false end.

Fixpoint leqb (a b : list Z) : bool :=
  match a, b with [] , [] => true | x :: a', y :: b' => (x =? y) && leqb a' b' | _, _ => false end.
(** memcmp(a, b, n) > 0 on equally long buffers. *)
Fixpoint lexgt (a b : list Z) : bool :=
  match a, b with
  | x :: a', y :: b' => if x =? y then lexgt a' b' else y <? x
  | _, _ => false
  end.

Section Device.
Context (C : crypto).

(** wg_crypto.c:409-492 wg_kdf1, wg_kdf2, wg_kdf3 *)
Definition kdf1 (key input : list Z) : list Z := c_hmac C (c_hmac C key input) [1].
Definition kdf2 (key input : list Z) : list Z * list Z :=
  let prk := c_hmac C key input in
  let t1 := c_hmac C prk [1] in (t1, c_hmac C prk (t1 ++ [2])).
Definition kdf3 (key input : list Z) : list Z * list Z * list Z :=
  let prk := c_hmac C key input in
  let t1 := c_hmac C prk [1] in
  let t2 := c_hmac C prk (t1 ++ [2]) in (t1, t2, c_hmac C prk (t2 ++ [3])).
(** wg_noise.c:37-40 mix_hash *)
Definition mix (h d : list Z) : list Z := c_hash C (h ++ d).

(** wg_crypto.c:508-529 wg_timestamp_now *)
Definition timestamp (now : Z) : list Z :=
  be64 (u64 (4611686018427387914 + now / 1000)) ++ be32 (u32 (now mod 1000 * 1000000)).

(** wg_crypto.c:18-53 wg_dh_generate: a private key from the generator and its
    public key; generator failures and unusable keys are failures. *)
Definition dh_generate (g : gdev) : gdev * option (list Z * list Z) :=
  match g_rng g with
  | [] => (g, None)
  | b :: r => (up_rng g r, match c_pub C b with Some pb => Some (b, pb) | None => None end)
  end.

(** wg_noise.c:21-34 wg_new_index: random non-zero index, 0 on failure. *)
Fixpoint new_index_l (r : list (list Z)) : list (list Z) * Z :=
  match r with
  | [] => ([], 0)
  | b :: r' => let v := u32 (rdle32 b) in if v =? 0 then new_index_l r' else (r', v)
  end.
Definition new_index (g : gdev) : gdev * Z :=
  let (r, v) := new_index_l (g_rng g) in (up_rng g r, v).

(** wg_noise.c:62-87 wg_noise_handshake_init *)
Definition handshake_init (priv rpub psk : list Z) : hs :=
  match c_dh C priv rpub with
  | Some ss => mkHs Zeroed (zbytes 32) rpub (zbytes 65) ss psk (zbytes 32) (zbytes 32) 0 0
  | None => hs_zero
  end.

(** wg_noise.c:108-211 wg_noise_create_initiation.  The result is the message up
    to its MACs; every exit leaves the handshake fields as the code does. *)
Definition create_initiation (g : gdev) (h : hs) : gdev * hs * option (list Z) :=
  let ck0 := c_hash C CONSTRUCTION in
  let h0 := c_hash C (ck0 ++ IDENTIFIER) in
  let h1 := mix h0 (h_rstatic h) in
  match dh_generate g with
  | (g1, None) => (g1, hs_ch h ck0 h1, None)
  | (g1, Some (epriv, epub)) =>
      let ck1 := kdf1 ck0 epub in
      let h2 := mix h1 epub in
      let hA := hs_eph h epriv in
      match c_dh C epriv (h_rstatic h) with
      | None => (g1, hs_ch hA ck1 h2, None)
      | Some dh =>
          let (ck2, key) := kdf2 ck1 dh in
          match c_enc C key 0 (g_pub g) h2 with
          | None => (g1, hs_ch hA ck2 h2, None)
          | Some es =>
              let h3 := mix h2 es in
              let (ck3, key2) := kdf2 ck2 (h_ss h) in
              match c_enc C key2 0 (timestamp (g_now g)) h3 with
              | None => (g1, hs_ch hA ck3 h3, None)
              | Some et =>
                  let h4 := mix h3 et in
                  let (g2, idx) := new_index g1 in
                  let hB := hs_idx (hs_ch hA ck3 h4) (h_ridx h) idx in
                  if idx =? 0 then (g2, hB, None)
                  else (g2, hs_st hB CreatedInit, Some (le32 1 ++ le32 idx ++ epub ++ es ++ et))
              end
          end
      end
  end.

(** The fields of an initiation (wolfguard.h:166-173). *)
Definition mi_sender (m : list Z) := rdle32 (slice m 4 4).
Definition mi_eph (m : list Z) := slice m 8 65.
Definition mi_static (m : list Z) := slice m 73 81.
Definition mi_ts (m : list Z) := slice m 154 28.
Definition INIT_LEN := 246.
Definition INIT_MAC := 182.
(** The fields of a response (wolfguard.h:175-182). *)
Definition mr_sender (m : list Z) := rdle32 (slice m 4 4).
Definition mr_receiver (m : list Z) := rdle32 (slice m 8 4).
Definition mr_eph (m : list Z) := slice m 12 65.
Definition mr_empty (m : list Z) := slice m 77 16.
Definition RESP_LEN := 157.
Definition RESP_MAC := 93.

(** wg_noise.c:287-297: the first active peer with this public key. *)
Fixpoint find_pub (ps : list peer) (pub : list Z) (i : nat) : option nat :=
  match ps with
  | [] => None
  | p :: ps' => if p_active p && leqb (p_pub p) pub then Some i else find_pub ps' pub (S i)
  end.

(** wg_noise.c:219-364 wg_noise_consume_initiation: the peer and its new state
    with the timestamp it accepted, or [None]. *)
Definition consume_initiation (g : gdev) (ps : list peer) (m : list Z) : option (nat * peer * list Z) :=
  let ck0 := c_hash C CONSTRUCTION in
  let h0 := c_hash C (ck0 ++ IDENTIFIER) in
  let h1 := mix h0 (g_pub g) in
  let epub := mi_eph m in
  let ck1 := kdf1 ck0 epub in
  let h2 := mix h1 epub in
  match c_dh C (g_priv g) epub with
  | None => None
  | Some dh =>
      let (ck2, key) := kdf2 ck1 dh in
      match c_dec C key 0 (mi_static m) h2 with
      | None => None
      | Some spub =>
          let h3 := mix h2 (mi_static m) in
          match find_pub ps spub 0 with
          | None => None
          | Some i =>
              let p := nth i ps peer_zero in
              if (0 <? p_lastinit p) && (u64 (g_now g - p_lastinit p) <? REKEY_TIMEOUT_MS) then None else
              let (ck3, key2) := kdf2 ck2 (h_ss (p_hs p)) in
              match c_dec C key2 0 (mi_ts m) h3 with
              | None => None
              | Some ts =>
                  let h4 := mix h3 (mi_ts m) in
                  if negb (lexgt ts (p_ts p)) then None else
                  let h' := hs_st (hs_idx (hs_reph (hs_ch (p_hs p) ck3 h4) epub) (mi_sender m) (h_lidx (p_hs p))) ConsumedInit in
                  Some (i, up_hello (up_hs p h') ts (g_now g), ts)
              end
          end
      end
  end.

(** wg_noise.c:382-478 wg_noise_create_response *)
Definition create_response (g : gdev) (h : hs) : gdev * hs * option (list Z) :=
  if negb (hs_eqb (h_state h) ConsumedInit) then (g, h, None) else
  match dh_generate g with
  | (g1, None) => (g1, h, None)
  | (g1, Some (epriv, epub)) =>
      let ck1 := kdf1 (h_ck h) epub in
      let h1 := mix (h_hash h) epub in
      let hA := hs_eph h epriv in
      match c_dh C epriv (h_reph h) with
      | None => (g1, hs_ch hA ck1 h1, None)
      | Some dh1 =>
          let ck2 := kdf1 ck1 dh1 in
          match c_dh C epriv (h_rstatic h) with
          | None => (g1, hs_ch hA ck2 h1, None)
          | Some dh2 =>
              let ck3 := kdf1 ck2 dh2 in
              let '(ck4, tau, key) := kdf3 ck3 (h_psk h) in
              let h2 := mix h1 tau in
              match c_enc C key 0 [] h2 with
              | None => (g1, hs_ch hA ck4 h2, None)
              | Some ee =>
                  let h3 := mix h2 ee in
                  let (g2, idx) := new_index g1 in
                  let hB := hs_idx (hs_ch hA ck4 h3) (h_ridx h) idx in
                  if idx =? 0 then (g2, hB, None)
                  else (g2, hs_st hB CreatedResp, Some (le32 2 ++ le32 idx ++ le32 (h_ridx h) ++ epub ++ ee))
              end
          end
      end
  end.

(** wg_noise.c:484-580 wg_noise_consume_response: the new handshake, or [None]
    (nothing is committed on failure). *)
Definition consume_response (g : gdev) (h : hs) (m : list Z) : option hs :=
  if negb (hs_eqb (h_state h) CreatedInit) then None else
  let epub := mr_eph m in
  let ck1 := kdf1 (h_ck h) epub in
  let h1 := mix (h_hash h) epub in
  match c_dh C (h_eph h) epub with
  | None => None
  | Some dh1 =>
      let ck2 := kdf1 ck1 dh1 in
      match c_dh C (g_priv g) epub with
      | None => None
      | Some dh2 =>
          let ck3 := kdf1 ck2 dh2 in
          let '(ck4, tau, key) := kdf3 ck3 (h_psk h) in
          let h2 := mix h1 tau in
          match c_dec C key 0 (mr_empty m) h2 with
          | None => None
          | Some _ =>
              let h3 := mix h2 (mr_empty m) in
              Some (hs_st (hs_idx (hs_ch h ck4 h3) (mr_sender m) (h_lidx h)) ConsumedResp)
          end
      end
  end.

(** A function of the code on one peer: device and peer before, both after and
    what happened.  [i] is the peer's index. *)
Definition act := gdev -> peer -> gdev * peer * list ev.
Definition skip : act := fun g p => (g, p, []).
Definition seq (a b : act) : act := fun g p =>
  let '(g1, p1, e1) := a g p in
  let '(g2, p2, e2) := b g1 p1 in (g2, p2, e1 ++ e2).

(** wg_noise.c:590-685 wg_noise_begin_session ([keypair_counter]/internal_id,
    which nothing reads, is left out).  [None] is "return -1". *)
Definition free_slot (k : kps) : nat :=
  match find (fun i => negb (oeqb (Some i) (s_cur k)) && negb (oeqb (Some i) (s_prev k))) [0%nat; 1%nat; 2%nat] with
  | Some i => i
  | None => match s_prev k with Some j => j | None => 0%nat end
  end.
Definition drop_next (k : kps) : kps :=
  match s_next k with
  | Some n => mkKps (s_cur k) (s_prev k) None (lset (s_slots k) n kp_zero)
  | None => k
  end.
Definition begin_session (i : Z) (g : gdev) (p : peer) : option (peer * list ev) :=
  let h := p_hs p in
  if negb (hs_eqb (h_state h) ConsumedResp) && negb (hs_eqb (h_state h) CreatedResp) then None else
  let ini := hs_eqb (h_state h) ConsumedResp in
  let (t1, t2) := kdf2 (h_ck h) [] in
  let k1 := drop_next (p_kps p) in
  let s := free_slot k1 in
  let sk := if ini then t1 else t2 in
  let rk := if ini then t2 else t1 in
  let nk := mkKp sk (g_now g) true rk (g_now g) true 0 wgrx_init (h_lidx h) (h_ridx h) ini in
  let slots := lset (s_slots k1) s nk in
  let k2 := if ini then mkKps (Some s) (s_cur k1) (s_next k1) slots
            else mkKps (s_cur k1) (s_prev k1) (Some s) slots in
  let h' := hs_st (hs_ch (hs_eph h (zbytes 32)) (zbytes 32) (zbytes 32)) Zeroed in
  Some (up_kps (up_hs p h') k2, [ENew i sk rk (g_now g)]).

(** wg_cookie.c:65-102 wg_cookie_add_macs: the complete message and the peer's
    cookie state. *)
Definition add_macs (c : cookie) (m : list Z) (now : Z) : cookie * list Z :=
  let mac1 := c_hmac C (c_mac1key c) m in
  let c' := mkCookie (c_birth c) (c_valid c) (c_cookie c) mac1 true (c_deckey c) (c_mac1key c) in
  let mac2 := if c_valid c && (u64 (now - c_birth c) <=? COOKIE_AGE_MS)
              then c_hmac C (c_cookie c) (m ++ mac1) else zbytes 32 in
  (c', m ++ mac1 ++ mac2).

(** wg_packet.c:187-201, :261-274 and wg_timers.c:88-102: create an initiation, attach the MACs, send
    it, note the time.  Nothing is sent when the creation fails. *)
Definition initiate (i : Z) : act := fun g p =>
  match create_initiation g (p_hs p) with
  | (g1, h1, None) => (g1, up_hs p h1, [EFail i])
  | (g1, h1, Some m) =>
      let (c', full) := add_macs (p_cookie p) m (g_now g1) in
      let p1 := up_cookie (up_hs p h1) c' in
      (g1, up_tinit p1 (g_now g1) (u8 (p_att p1 + 1)),
       [EInit i (g_now g1) full; EUdp (p_ip p) (p_port p) full])
  end.

(** wg_timers.c:68-73 wg_reset_handshake *)
Definition reset_handshake : act := fun g p =>
  (g, up_hs p (handshake_init (g_priv g) (p_pub p) (h_psk (p_hs p))), []).
(** wg_timers.c:80-103 wg_send_handshake_initiation *)
Definition send_initiation (i : Z) : act := seq reset_handshake (initiate i).

(** wg_packet.c:152-164 wg_stage_packet *)
Definition stage (p : peer) (pkt : list Z) : peer :=
  if STAGED <=? p_cnt p then p else
  let d := if LINK_MTU <? zlen pkt then firstn (Z.to_nat LINK_MTU) pkt else pkt in
  up_stg p (lset (p_arr p) (Z.to_nat (p_cnt p)) d) (p_cnt p + 1).

(** wg_packet.c:97-103 wg_pad_len and :216-221 *)
Definition pad_len (n : Z) : Z := if n mod 16 =? 0 then n else n + (16 - n mod 16).
Definition pad (pkt : list Z) : list Z := pkt ++ zbytes (Z.to_nat (pad_len (zlen pkt) - zlen pkt)).

(** wg_packet.c:224-227: the transport header. *)
Definition data_header (ridx c : Z) : list Z := le32 4 ++ le32 ridx ++ le64 c.

(** wg_packet.c:169-280 wg_packet_send *)
Definition packet_send (i : Z) (pkt : list Z) : act := fun g p =>
  let no_session :=
    let p1 := stage p pkt in
    if hs_eqb (h_state (p_hs p1)) Zeroed then initiate i g p1 else (g, p1, []) in
  match s_cur (p_kps p) with
  | None => no_session
  | Some s =>
      let k := slot (p_kps p) s in
      if negb (k_svalid k) then no_session else
      let age := u64 (g_now g - k_sbirth k) in
      if (REKEY_AFTER_MESSAGES <=? k_sctr k) || (REJECT_AFTER_MS <=? age) then
        (g, stage (up_kps p (up_slot (p_kps p) s (kp_inv k))) pkt, []) else
      if LINK_MTU <? pad_len (zlen pkt) then (g, p, []) else
      match c_enc C (k_skey k) (k_sctr k) (pad pkt) [] with
      | None => (g, p, [])
      | Some ct =>
          let c' := u64 (k_sctr k + 1) in
          let p1 := up_kps p (up_slot (p_kps p) s (kp_ctr k c')) in
          let p2 := up_tsent p1 (g_now g) (u64 (p_txb p1 + zlen pkt)) in
          let e := [EEnc i (k_skey k) (k_sctr k) (pad pkt) (g_now g);
                    EUdp (p_ip p) (p_port p) (data_header (k_ridx k) (k_sctr k) ++ ct)] in
          if ((REKEY_AFTER_MESSAGES <=? c') || (REKEY_AFTER_MS <=? age)) && k_init k then
            let '(g3, p3, e3) := initiate i g p2 in (g3, p3, e ++ e3)
          else (g, p2, e)
      end
  end.

(** wg_packet.c:285-311 wg_packet_send_staged: the count is reset first, then
    slot [j] is copied out, cleared and sent, which may stage it again. *)
Fixpoint staged_loop (i : Z) (n j : nat) : act := fun g p =>
  match n with
  | O => (g, p, [])
  | S n' =>
      let pkt := nth j (p_arr p) [] in
      seq (packet_send i pkt) (staged_loop i n' (S j)) g (up_stg p (lset (p_arr p) j []) (p_cnt p))
  end.
Definition send_staged (i : Z) : act := fun g p =>
  staged_loop i (Z.to_nat (p_cnt p)) 0 g (up_stg p (p_arr p) 0).

(** wg_packet.c:316-365 wg_packet_send_keepalive *)
Definition keepalive (i : Z) : act := fun g p =>
  match s_cur (p_kps p) with
  | None => (g, p, [])
  | Some s =>
      let k := slot (p_kps p) s in
      if negb (k_svalid k) then (g, p, []) else
      if WG_REJECT_AFTER_MESSAGES <=? k_sctr k then (g, p, []) else
      if REJECT_AFTER_MS <=? u64 (g_now g - k_sbirth k) then (g, p, []) else
      match c_enc C (k_skey k) (k_sctr k) [] [] with
      | None => (g, p, [])
      | Some ct =>
          (g, up_kps p (up_slot (p_kps p) s (kp_ctr k (u64 (k_sctr k + 1)))),
           [EEnc i (k_skey k) (k_sctr k) [] (g_now g);
            EUdp (p_ip p) (p_port p) (data_header (k_ridx k) (k_sctr k) ++ ct)])
      end
  end.

(** wg_packet.c:110-141 wg_find_peer_by_index: peer number and slot. *)
Definition match_idx (k : kps) (o : option nat) (idx : Z) : bool :=
  match o with Some s => k_lidx (slot k s) =? idx | None => false end.
Fixpoint find_idx (ps : list peer) (idx : Z) (i : nat) : option (nat * nat) :=
  match ps with
  | [] => None
  | p :: ps' =>
      let k := p_kps p in
      let pick o := match o with Some s => Some (i, s) | None => None end in
      if negb (p_active p) then find_idx ps' idx (S i) else
      if match_idx k (s_cur k) idx then pick (s_cur k) else
      if match_idx k (s_prev k) idx then pick (s_prev k) else
      if match_idx k (s_next k) idx then pick (s_next k) else find_idx ps' idx (S i)
  end.

(** wg_packet.c:419-427: data under "next" confirms the session. *)
Definition confirm (k : kps) (s : nat) : kps :=
  if oeqb (Some s) (s_next k) then
    let slots := match s_prev k with Some pv => lset (s_slots k) pv kp_zero | None => s_slots k end in
    mkKps (Some s) (s_cur k) None slots
  else k.

Definition dev := (gdev * list peer)%type.

(** wg_packet.c:370-458 wg_handle_data *)
Definition handle_data (d : dev) (b : list Z) (ip port : Z) : dev * list ev :=
  let (g, ps) := d in
  if zlen b <? 32 then (d, []) else
  let idx := rdle32 (slice b 4 4) in
  let ctr := rdle64 (slice b 8 8) in
  match find_idx ps idx 0 with
  | None => (d, [])
  | Some (i, s) =>
      let p := nth i ps peer_zero in
      let k := slot (p_kps p) s in
      if negb (k_rvalid k) then (d, []) else
      if REJECT_AFTER_MS <=? u64 (g_now g - k_rbirth k) then (d, []) else
      if LINK_MTU <? zlen b - 32 then (d, []) else
      match c_dec C (k_rkey k) ctr (skipn 16 b) [] with
      | None => (d, [])
      | Some pt =>
          let (rx, ok) := wg_counter_validate (k_rx k) ctr in
          let p1 := up_kps p (up_slot (p_kps p) s (kp_rx k rx)) in
          if negb ok then ((g, lset ps i p1), []) else
          let p2 := up_kps p1 (confirm (p_kps p1) s) in
          let p3 := up_ep p2 ip port in
          let p4 := up_trecv p3 (g_now g) (u64 (p_rxb p3 + zlen pt)) in
          ((g, lset ps i p4),
           EAcc (Z.of_nat i) (k_rkey k) ctr pt (g_now g) ::
           match wg_inject (g_aips g) (Z.of_nat i) pt with Some x => [EInj (Z.of_nat i) x] | None => [] end)
      end
  end.

(** wg_cookie.c:107-161 wg_cookie_validate *)
Inductive macst := MacInvalid | MacValid | MacCookie.
Definition src_data (ip port : Z) : list Z := le32 ip ++ [u8 port; u8 (port / 256)].
Definition cookie_validate (x : checker) (m : list Z) (off : nat) (ip port now : Z) : macst :=
  if zlen m <? Z.of_nat off + 64 then MacInvalid else
  let mac1 := slice m off 32 in
  let mac2 := slice m (off + 32) 32 in
  if negb (leqb (c_hmac C (x_mac1key x) (firstn off m)) mac1) then MacInvalid else
  if leqb mac2 (zbytes 32) then MacValid else
  if COOKIE_AGE_MS <? u64 (now - x_birth x) then MacValid else
  let ck := c_hmac C (x_secret x) (src_data ip port) in
  if leqb (c_hmac C ck (firstn (off + 32) m)) mac2 then MacCookie else MacValid.

(** wg_cookie.c:166-228 wg_cookie_create_reply; [sidx] is the four bytes of the
    triggering message's sender index. *)
Definition create_reply (g : gdev) (m : list Z) (off : nat) (ip port : Z) : gdev * option (list Z) :=
  let fresh :=
    if COOKIE_AGE_MS <? u64 (g_now g - x_birth (g_chk g)) then
      match g_rng g with
      | [] => (g, false)
      | b :: r => (up_chk (up_rng g r) (mkChecker b (g_now g) (x_enckey (g_chk g)) (x_mac1key (g_chk g))), true)
      end
    else (g, true) in
  let (g1, ok) := fresh in
  if negb ok then (g1, None) else
  let ck := c_hmac C (x_secret (g_chk g1)) (src_data ip port) in
  match g_rng g1 with
  | [] => (g1, None)
  | nonce :: r =>
      let g2 := up_rng g1 r in
      match c_xenc C (x_enckey (g_chk g1)) nonce ck (slice m off 32) with
      | None => (g2, None)
      | Some e => (g2, Some (le32 3 ++ slice m 4 4 ++ nonce ++ e))
      end
  end.
Definition send_reply (d : dev) (m : list Z) (off : nat) (ip port : Z) : dev * list ev :=
  match create_reply (fst d) m off ip port with
  | (g, None) => ((g, snd d), [])
  | (g, Some r) => ((g, snd d), [EUdp ip port r])
  end.

(** Run a peer function on peer [i] of the device. *)
Definition on_peer (d : dev) (i : nat) (a : act) : dev * list ev :=
  let '(g, p, e) := a (fst d) (nth i (snd d) peer_zero) in ((g, lset (snd d) i p), e).

(** wg_packet.c:538-542 and :619-631: transport keys, then the staged packets. *)
Definition finish (i : Z) (extra : act) : act := fun g p =>
  match begin_session i g p with
  | None => (g, p, [])
  | Some (p1, e1) =>
      let '(g2, p2, e2) := seq (send_staged i) extra g (up_tdone p1 (g_now g)) in (g2, p2, e1 ++ e2)
  end.

(** wg_packet.c:516-542: answer an accepted initiation. *)
Definition answer (i : Z) (ip port : Z) : act := fun g p =>
  let p0 := up_ep p ip port in
  match create_response g (p_hs p0) with
  | (g1, h1, None) => (g1, up_hs p0 h1, [])
  | (g1, h1, Some m) =>
      let (c', full) := add_macs (p_cookie p0) m (g_now g1) in
      let p1 := up_cookie (up_hs p0 h1) c' in
      let '(g2, p2, e2) := finish i skip g1 p1 in
      (g2, p2, EUdp ip port full :: e2)
  end.

(** wg_packet.c:463-543 wg_handle_initiation *)
Definition handle_initiation (d : dev) (b : list Z) (ip port : Z) : dev * list ev :=
  let (g, ps) := d in
  if zlen b <? INIT_LEN then (d, []) else
  match cookie_validate (g_chk g) b (Z.to_nat INIT_MAC) ip port (g_now g) with
  | MacInvalid => (d, [])
  | st =>
      if g_load g && negb (match st with MacCookie => true | _ => false end)
      then send_reply d b (Z.to_nat INIT_MAC) ip port else
      let g1 := up_hpc g (u16 (g_hpc g + 1)) in
      match consume_initiation g1 ps b with
      | None => ((g1, ps), [])
      | Some (i, p, ts) =>
          let (d', e) := on_peer (g1, lset ps i p) i (answer (Z.of_nat i) ip port) in
          (d', EHello (Z.of_nat i) ts (g_now g) :: e)
      end
  end.

(** wg_packet.c:595-604: the first active peer that waits for this response. *)
Fixpoint find_wait (ps : list peer) (idx : Z) (i : nat) : option nat :=
  match ps with
  | [] => None
  | p :: ps' =>
      if p_active p && hs_eqb (h_state (p_hs p)) CreatedInit && (h_lidx (p_hs p) =? idx) then Some i
      else find_wait ps' idx (S i)
  end.
(** wg_packet.c:624-630 *)
Definition first_keepalive (i : Z) : act := fun g p =>
  match s_cur (p_kps p) with
  | Some s => if k_sctr (slot (p_kps p) s) =? 0 then keepalive i g p else (g, p, [])
  | None => (g, p, [])
  end.

(** wg_packet.c:548-632 wg_handle_response *)
Definition handle_response (d : dev) (b : list Z) (ip port : Z) : dev * list ev :=
  let (g, ps) := d in
  if zlen b <? RESP_LEN then (d, []) else
  match cookie_validate (g_chk g) b (Z.to_nat RESP_MAC) ip port (g_now g) with
  | MacInvalid => (d, [])
  | st =>
      if g_load g && negb (match st with MacCookie => true | _ => false end)
      then send_reply d b (Z.to_nat RESP_MAC) ip port else
      let g1 := up_hpc g (u16 (g_hpc g + 1)) in
      match find_wait ps (mr_receiver b) 0 with
      | None => ((g1, ps), [])
      | Some i =>
          let p := nth i ps peer_zero in
          match consume_response g1 (p_hs p) b with
          | None => ((g1, ps), [])
          | Some h1 =>
              on_peer (g1, lset ps i (up_ep (up_hs p h1) ip port)) i
                (finish (Z.of_nat i) (first_keepalive (Z.of_nat i)))
          end
      end
  end.

(** wg_packet.c:637-665 wg_handle_cookie and wg_cookie.c:233-259
    wg_cookie_consume_reply *)
Fixpoint find_mac1 (ps : list peer) (idx : Z) (i : nat) : option nat :=
  match ps with
  | [] => None
  | p :: ps' =>
      if p_active p && c_sent1 (p_cookie p) && (h_lidx (p_hs p) =? idx) then Some i
      else find_mac1 ps' idx (S i)
  end.
Definition consume_reply (c : cookie) (b : list Z) (now : Z) : cookie :=
  if negb (c_sent1 c) then c else
  match c_xdec C (c_deckey c) (slice b 8 16) (slice b 24 48) (c_last1 c) with
  | None => c
  | Some ck => mkCookie now true ck (c_last1 c) false (c_deckey c) (c_mac1key c)
  end.
Definition handle_cookie (d : dev) (b : list Z) : dev * list ev :=
  let (g, ps) := d in
  if zlen b <? 72 then (d, []) else
  match find_mac1 ps (rdle32 (slice b 4 4)) 0 with
  | None => (d, [])
  | Some i =>
      let p := nth i ps peer_zero in
      ((g, lset ps i (up_cookie p (consume_reply (p_cookie p) b (g_now g)))), [])
  end.

(** wg_packet.c:670-697 wg_packet_receive *)
Definition packet_receive (d : dev) (b : list Z) (ip port : Z) : dev * list ev :=
  if zlen b <? 4 then (d, []) else
  let ty := rdle32 b in
  if ty =? 1 then handle_initiation d b ip port else
  if ty =? 2 then handle_response d b ip port else
  if ty =? 3 then handle_cookie d b else
  if ty =? 4 then handle_data d b ip port else (d, []).

(** wg_timers.c:28-33 wg_regenerate_jitter (a failing generator leaves r = 0). *)
Definition jitter : act := fun g p =>
  match g_rng g with
  | [] => (g, up_jit p 0, [])
  | b :: r => (up_rng g r, up_jit p ((zget b 0 + 256 * zget b 1) mod 1666), [])
  end.

(** wg_timers.c:122-138 wg_timer_handshake_retransmit *)
Definition tm_retransmit (i : Z) : act := fun g p =>
  if negb (hs_eqb (h_state (p_hs p)) CreatedInit) || (p_tinit p =? 0) then (g, p, []) else
  if MAX_ATTEMPTS <=? p_att p then
    let '(g1, p1, e) := reset_handshake g p in (g1, up_tinit p1 0 0, e)
  else if REKEY_TIMEOUT_MS <=? u64 (g_now g - p_tinit p) then send_initiation i g p
  else (g, p, []).

(** wg_timers.c:144-166 wg_timer_passive_keepalive *)
Definition tm_passive (i : Z) : act := fun g p =>
  match s_cur (p_kps p) with
  | None => (g, p, [])
  | Some s =>
      if negb (k_svalid (slot (p_kps p) s)) then (g, p, []) else
      if (p_trecv p =? 0) || (KEEPALIVE_MS <=? u64 (g_now g - p_trecv p)) then (g, p, []) else
      if negb (p_tsent p =? 0) && (u64 (g_now g - p_tsent p) <? KEEPALIVE_MS) then (g, p, []) else
      if negb (p_tka p =? 0) && (u64 (g_now g - p_tka p) <? KEEPALIVE_MS) then (g, p, []) else
      let '(g1, p1, e) := keepalive i g p in (g1, up_tka p1 (g_now g), e)
  end.

(** wg_timers.c:173-188 wg_timer_rekey_after_time *)
Definition tm_rekey (i : Z) : act := fun g p =>
  match s_cur (p_kps p) with
  | None => (g, p, [])
  | Some s =>
      let k := slot (p_kps p) s in
      if negb (k_svalid k) || negb (k_init k) || negb (hs_eqb (h_state (p_hs p)) Zeroed) then (g, p, []) else
      if u64 (g_now g - k_sbirth k) <? REKEY_AFTER_MS + p_jit p then (g, p, []) else
      seq jitter (send_initiation i) g p
  end.

(** wg_timers.c:194-217 wg_timer_initiate_after_stale *)
Definition tm_stale (i : Z) : act := fun g p =>
  match s_cur (p_kps p) with
  | None => (g, p, [])
  | Some _ =>
      if negb (hs_eqb (h_state (p_hs p)) Zeroed) || (p_tsent p =? 0) ||
         (KEEPALIVE_MS + REKEY_TIMEOUT_MS <=? u64 (g_now g - p_tsent p)) then (g, p, []) else
      if negb (p_trecv p =? 0) && (p_tsent p <=? p_trecv p) then (g, p, []) else
      if negb (p_tinit p =? 0) && (u64 (g_now g - p_tinit p) <? REKEY_TIMEOUT_MS + p_jit p) then (g, p, []) else
      seq jitter (send_initiation i) g p
  end.

(** wg_timers.c:223-239 wg_timer_zero_expired_keys *)
Definition tm_zero : act := fun g p =>
  match s_cur (p_kps p) with
  | None => (g, p, [])
  | Some s =>
      if u64 (g_now g - k_sbirth (slot (p_kps p) s)) <? REJECT_AFTER_MS * 3 then (g, p, []) else
      reset_handshake g (up_kps p kps_zero)
  end.

(** wg_timers.c:245-260 wg_timer_persistent_keepalive *)
Definition tm_persistent (i : Z) : act := fun g p =>
  if p_pki p =? 0 then (g, p, []) else
  match s_cur (p_kps p) with
  | None => (g, p, [])
  | Some s =>
      if negb (k_svalid (slot (p_kps p) s)) then (g, p, []) else
      if negb (p_tsent p =? 0) && (u64 (g_now g - p_tsent p) <? p_pki p * 1000) then (g, p, []) else
      let '(g1, p1, e) := keepalive i g p in (g1, up_tka p1 (g_now g), e)
  end.

(** wg_timers.c:268-285 wg_timers_tick: one peer, then all of them. *)
Definition tick (i : Z) : act := fun g p =>
  if negb (p_active p) then (g, p, []) else
  seq (tm_retransmit i) (seq (tm_passive i) (seq (tm_rekey i)
    (seq (tm_stale i) (seq tm_zero (tm_persistent i))))) g p.
Fixpoint tick_all (d : dev) (n i : nat) : dev * list ev :=
  match n with
  | O => (d, [])
  | S n' =>
      let (d1, e1) := on_peer d i (tick (Z.of_nat i)) in
      let (d2, e2) := tick_all d1 n' (S i) in (d2, e1 ++ e2)
  end.

(** wolfguard.c:167-215 wolfguard_set_private_key.  On an unusable key the code
    erases the private key and keeps everything else. *)
Definition rekey_peer (priv : list Z) (p : peer) : peer :=
  if negb (p_active p) then p else
  up_hs (up_stg (up_kps p kps_zero) (repeat [] 16) 0) (handshake_init priv (p_pub p) (h_psk (p_hs p))).
Definition checker_init (pub : list Z) : checker :=
  mkChecker (zbytes 32) (18446744073709551615 - 120000 - 1)
    (c_hash C (LABEL_COOKIE ++ pub)) (c_hash C (LABEL_MAC1 ++ pub)).
Definition set_private_key (d : dev) (priv : list Z) : dev :=
  match c_pub C priv with
  | None => (up_key (fst d) (zbytes 32) (g_pub (fst d)) (g_chk (fst d)), snd d)
  | Some pb => (up_key (fst d) priv pb (checker_init pb), map (rekey_peer priv) (snd d))
  end.

(** wolfguard.c:217-252 wolfguard_add_peer *)
Fixpoint find_free (ps : list peer) (i : nat) : option nat :=
  match ps with [] => None | p :: ps' => if negb (p_active p) then Some i else find_free ps' (S i) end.
Definition new_peer (g : gdev) (pub psk : list Z) (ip port ka : Z) : peer :=
  mkPeer pub (handshake_init (g_priv g) pub psk) kps_zero
    (mkCookie 0 false (zbytes 32) (zbytes 32) false (c_hash C (LABEL_COOKIE ++ pub)) (c_hash C (LABEL_MAC1 ++ pub)))
    (zbytes 12) 0 ip port (repeat [] 16) 0 0 0 0 0 0 0 0 ka 0 0 true.
Definition add_peer (d : dev) (pub psk : list Z) (ip port ka : Z) : dev :=
  match find_free (snd d) 0 with
  | None => d
  | Some i => (fst d, lset (snd d) i (new_peer (fst d) pub psk ip port ka))
  end.

(** wolfguard.c:254-263 wolfguard_add_allowed_ip *)
Definition add_allowed (d : dev) (i ip cidr : Z) : dev :=
  if (i <? 0) || (MAX_PEERS <=? i) then d else
  if negb (p_active (nth (Z.to_nat i) (snd d) peer_zero)) then d else
  (up_aips (fst d) (fst (aips_insert (g_aips (fst d)) ip cidr i)), snd d).

(** wolfguard.c:272-295 wolfguard_output *)
Definition output (d : dev) (pkt : list Z) : dev * list ev :=
  match wolfguard_output (g_aips (fst d)) (fun i => p_active (nth (Z.to_nat i) (snd d) peer_zero)) pkt with
  | None => (d, [])
  | Some i => let (d', e) := on_peer d (Z.to_nat i) (packet_send i pkt) in (d', EOut i pkt :: e)
  end.

(** wolfguard.c:301-307 wolfguard_poll *)
Definition poll (d : dev) (now : Z) : dev * list ev :=
  tick_all (up_poll (fst d) (MAX_PEERS <=? g_hpc (fst d)) now, snd d) 8 0.

(** The calls into a device: its API, and a datagram arriving on its socket. *)
Inductive op :=
| OKey (priv : list Z)
| OPeer (pub psk : list Z) (ip port ka : Z)
| OAllow (i ip cidr : Z)
| OOut (pkt : list Z)
| OPoll (now : Z)
| ORecv (b : list Z) (ip port : Z).

(** One call, with what the random generator will return during it. *)
Definition step (d : dev) (o : op) (rnd : list (list Z)) : dev * list ev :=
  let d0 := (up_rng (fst d) rnd, snd d) in
  match o with
  | OKey k => (set_private_key d0 k, [])
  | OPeer pub psk ip port ka => (add_peer d0 pub psk ip port ka, [])
  | OAllow i ip cidr => (add_allowed d0 i ip cidr, [])
  | OOut pkt => output d0 pkt
  | OPoll now => poll d0 now
  | ORecv b ip port => packet_receive d0 b ip port
  end.

(** wolfguard.c:99-165 wolfguard_init: everything zero. *)
Definition dev_init : dev :=
  (mkG (zbytes 32) (zbytes 65) aips_init (mkChecker (zbytes 32) 0 (zbytes 32) (zbytes 32)) false 0 0 [],
   repeat peer_zero 8).

Fixpoint run (d : dev) (ops : list (op * list (list Z))) : dev * list ev :=
  match ops with
  | [] => (d, [])
  | (o, r) :: ops' =>
      let (d1, e1) := step d o r in
      let (d2, e2) := run d1 ops' in (d2, e1 ++ e2)
  end.

End Device.
