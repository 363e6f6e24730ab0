(** Specification: the parameter sets of RFC 8391 (section 5.3, 5.4) and NIST SP 800-208
    (section 5), their names, OIDs and meaning.  Independent of the C code. *)
From Coq Require Import String DecimalString Decimal.
From Verif Require Import Base SpecRfc SpecFips202.

Inductive hash_fn := SHA2 | SHAKE_128 | SHAKE_256.
Record row := mkRow { r_mt : bool; r_oid : N; r_tag : string; r_fn : hash_fn; r_n : nat; r_h : nat; r_d : nat }.

(** decimal numeral *)
Definition dec (x : nat) : string := NilZero.string_of_uint (Nat.to_uint x).
(** "XMSS-<tag>_<h>_<8n>" and "XMSSMT-<tag>_<h>/<d>_<8n>" *)
Definition row_name (r : row) : string :=
  if r_mt r then ("XMSSMT-" ++ r_tag r ++ "_" ++ dec (r_h r) ++ "/" ++ dec (r_d r) ++ "_" ++ dec (8 * r_n r))%string
  else ("XMSS-" ++ r_tag r ++ "_" ++ dec (r_h r) ++ "_" ++ dec (8 * r_n r))%string.

(** consecutive OIDs *)
Fixpoint number (mt : bool) (o : N) (tag : string) (f : hash_fn) (n : nat) (hds : list (nat * nat)) : list row :=
  match hds with
  | [] => []
  | (h, d) :: t => mkRow mt o tag f n h d :: number mt (o + 1) tag f n t
  end.
Definition xmss_heights : list (nat * nat) := [(10, 1); (16, 1); (20, 1)].
Definition mt_heights : list (nat * nat) :=
  [(20, 2); (20, 4); (40, 2); (40, 4); (40, 8); (60, 3); (60, 6); (60, 12)].

(** RFC 8391 section 8, table "XMSS Signatures", and SP 800-208 tables 11-14 (SHA2/192,
    SHAKE256/256 and SHAKE256/192). *)
Definition xmss_rows : list row :=
  number false 1 "SHA2" SHA2 32 xmss_heights ++ number false 4 "SHA2" SHA2 64 xmss_heights ++
  number false 7 "SHAKE" SHAKE_128 32 xmss_heights ++ number false 10 "SHAKE" SHAKE_256 64 xmss_heights ++
  number false 13 "SHA2" SHA2 24 xmss_heights ++
  number false 16 "SHAKE256" SHAKE_256 32 xmss_heights ++ number false 19 "SHAKE256" SHAKE_256 24 xmss_heights.
Definition mt_rows : list row :=
  number true 1 "SHA2" SHA2 32 mt_heights ++ number true 9 "SHA2" SHA2 64 mt_heights ++
  number true 17 "SHAKE" SHAKE_128 32 mt_heights ++ number true 25 "SHAKE" SHAKE_256 64 mt_heights ++
  number true 33 "SHA2" SHA2 24 mt_heights ++
  number true 41 "SHAKE256" SHAKE_256 32 mt_heights ++ number true 49 "SHAKE256" SHAKE_256 24 mt_heights.
Definition rows (mt : bool) : list row := if mt then mt_rows else xmss_rows.

(** ** The hash function of a parameter set *)
(** SHA2 with n = 24, 32, 64: SHA-256 truncated to 192 bits, SHA-256, SHA-512. *)
Definition hash_of {E : Env} (f : hash_fn) (n : nat) (x : bytes) : bytes :=
  match f with
  | SHA2 => if n =? 64 then sha512 x else firstn n (sha256 x)
  | SHAKE_128 => b2h n (SHAKE128 (h2b x) (8 * n))
  | SHAKE_256 => b2h n (SHAKE256 (h2b x) (8 * n))
  end.
Definition row_hash {E : Env} (r : row) : bytes -> bytes := hash_of (r_fn r) (r_n r).
(** what is known about OpenSSL's functions: the digest sizes *)
Definition env_ok (E : Env) : Prop :=
  forall x, (length (sha256 x) = 32 /\ bytes_ok (sha256 x)) /\ (length (sha512 x) = 64 /\ bytes_ok (sha512 x)).

(** The RFC 8391 instance: w = 16; toByte prefixes of n bytes, 4 bytes for n = 24 *)
Definition row_sp {E : Env} (r : row) : sparams :=
  mkSp (r_n r) 4 (if r_n r =? 24 then 4 else r_n r) (r_h r) (r_d r) (row_hash r).

(** ** Custom parameters *)
(** the combinations of hash function and output size that exist *)
Definition fn_ok (f : hash_fn) (n : nat) : Prop :=
  (n = 24 /\ f <> SHAKE_128) \/ n = 32 \/ (n = 64 /\ f <> SHAKE_128).
(** A parameter choice an application may make by hand: hash function, n, lg(w), length of
    the toByte prefix, height, layers.  Trees of 1 to 30 levels, total height below 64. *)
Record custom := mkCustom { cu_fn : hash_fn; cu_n : nat; cu_lgw : nat; cu_pad : nat; cu_h : nat; cu_d : nat }.
Definition custom_ok (c : custom) : Prop :=
  fn_ok (cu_fn c) (cu_n c) /\ (cu_lgw c = 2 \/ cu_lgw c = 4 \/ cu_lgw c = 8) /\ cu_pad c <= cu_n c /\
  1 <= cu_d c /\ cu_h c = cu_d c * (cu_h c / cu_d c) /\ 1 <= cu_h c / cu_d c <= 30 /\ cu_h c < 64.
Definition custom_sp {E : Env} (c : custom) : sparams :=
  mkSp (cu_n c) (cu_lgw c) (cu_pad c) (cu_h c) (cu_d c) (hash_of (cu_fn c) (cu_n c)).
(** the standard sets are among them *)
Definition row_custom (r : row) : custom :=
  mkCustom (r_fn r) (r_n r) 4 (if r_n r =? 24 then 4 else r_n r) (r_h r) (r_d r).
