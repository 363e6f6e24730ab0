(** Model of hash.c *)
From Verif Require Import Base ModelUtils ModelParams ModelFips202.
Local Open Scope N_scope.

Section WithEnv.
Context {E : Env}.

(** hash.c:11-15 *)
Definition XMSS_HASH_PADDING_F : N := 0.
Definition XMSS_HASH_PADDING_H : N := 1.
Definition XMSS_HASH_PADDING_HASH : N := 2.
Definition XMSS_HASH_PADDING_PRF : N := 3.
Definition XMSS_HASH_PADDING_PRF_KEYGEN : N := 4.

(** hash.c:17-23 addr_to_bytes: eight big-endian 32-bit words *)
Definition addr_to_bytes (a : addr) : bytes :=
  ull_to_bytes 4 (a0 a) ++ ull_to_bytes 4 (a1 a) ++ ull_to_bytes 4 (a2 a) ++ ull_to_bytes 4 (a3 a) ++
  ull_to_bytes 4 (a4 a) ++ ull_to_bytes 4 (a5 a) ++ ull_to_bytes 4 (a6 a) ++ ull_to_bytes 4 (a7 a).

(** hash.c:25-57 core_hash; [Ok None] is the return value -1 (nothing is written). *)
Definition core_hash_rc (p : xmss_params) (inp : bytes) : res (option bytes) :=
  if (p_n p =? 24)%nat && (func p =? XMSS_SHA2) then
    (let* o := rd (sha256 inp) 0 24 in Ok (Some o))
  else if (p_n p =? 24)%nat && (func p =? XMSS_SHAKE256) then
    (let* o := shake256 24 inp in Ok (Some o))
  else if (p_n p =? 32)%nat && (func p =? XMSS_SHA2) then Ok (Some (sha256 inp))
  else if (p_n p =? 32)%nat && (func p =? XMSS_SHAKE128) then
    (let* o := shake128 32 inp in Ok (Some o))
  else if (p_n p =? 32)%nat && (func p =? XMSS_SHAKE256) then
    (let* o := shake256 32 inp in Ok (Some o))
  else if (p_n p =? 64)%nat && (func p =? XMSS_SHA2) then Ok (Some (sha512 inp))
  else if (p_n p =? 64)%nat && (func p =? XMSS_SHAKE256) then
    (let* o := shake256 64 inp in Ok (Some o))
  else Ok None.

(** The callers of core_hash, prf, thash_f, ... ignore the return code and go on to use
    the output array; when core_hash returned -1 that array was never written.  The model
    makes this use of an unwritten array the outcome UB. *)
Definition core_hash (p : xmss_params) (inp : bytes) : res bytes :=
  let* r := core_hash_rc p inp in
  match r with Some o => Ok o | None => UB end.

(** hash.c:62-73 prf.  [buf] is an automatic array written completely before use. *)
Definition prf (p : xmss_params) (inp key : bytes) : res bytes :=
  let* k := rd key 0 (p_n p) in
  let* i := rd inp 0 32 in
  core_hash p (ull_to_bytes (padding_len p) XMSS_HASH_PADDING_PRF ++ k ++ i).

(** hash.c:79-90 prf_keygen *)
Definition prf_keygen (p : xmss_params) (inp key : bytes) : res bytes :=
  let* k := rd key 0 (p_n p) in
  let* i := rd inp 0 (p_n p + 32) in
  core_hash p (ull_to_bytes (padding_len p) XMSS_HASH_PADDING_PRF_KEYGEN ++ k ++ i).

(** hash.c:99-112 hash_message.  [buf]/[off] is m_with_prefix (a pointer into a larger
    buffer); R may point into the same buffer, so it is given as a function of the
    current buffer contents.  Returns the digest and the buffer afterwards. *)
Definition hash_message (p : xmss_params) (R : bytes -> res bytes) (root : bytes) (idx : N)
    (buf : bytes) (off : nat) (mlen : nat) : res (bytes * bytes) :=
  let* buf := wr buf off (ull_to_bytes (padding_len p) XMSS_HASH_PADDING_HASH) in
  let* r := R buf in
  let* buf := wr buf (off + padding_len p) r in
  let* rt := rd root 0 (p_n p) in
  let* buf := wr buf (off + padding_len p + p_n p) rt in
  let* buf := wr buf (off + padding_len p + 2 * p_n p) (ull_to_bytes (p_n p) idx) in
  let* inp := rd buf off (mlen + padding_len p + 3 * p_n p) in
  let* o := core_hash p inp in
  Ok (o, buf).

(** [in[i] ^ bitmask[i]] *)
Definition xor_bytes (x y : bytes) : bytes := map (fun q => N.lxor (fst q) (snd q)) (combine x y).

(** hash.c:117-147 thash_h: returns the output and the address afterwards. *)
Definition thash_h (p : xmss_params) (inp pub_seed : bytes) (a : addr) : res (bytes * addr) :=
  let a := set_key_and_mask a 0 in
  let* key := prf p (addr_to_bytes a) pub_seed in
  let a := set_key_and_mask a 1 in
  let* m0 := prf p (addr_to_bytes a) pub_seed in
  let a := set_key_and_mask a 2 in
  let* m1 := prf p (addr_to_bytes a) pub_seed in
  let* i := rd inp 0 (2 * p_n p) in
  let* o := core_hash p (ull_to_bytes (padding_len p) XMSS_HASH_PADDING_H ++ key
                          ++ xor_bytes i (m0 ++ m1)) in
  Ok (o, a).

(** hash.c:149-175 thash_f *)
Definition thash_f (p : xmss_params) (inp pub_seed : bytes) (a : addr) : res (bytes * addr) :=
  let a := set_key_and_mask a 0 in
  let* key := prf p (addr_to_bytes a) pub_seed in
  let a := set_key_and_mask a 1 in
  let* m0 := prf p (addr_to_bytes a) pub_seed in
  let* i := rd inp 0 (p_n p) in
  let* o := core_hash p (ull_to_bytes (padding_len p) XMSS_HASH_PADDING_F ++ key
                          ++ xor_bytes i m0) in
  Ok (o, a).

End WithEnv.
