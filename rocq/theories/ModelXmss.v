(** Model of xmss.c: the public API, keys carry their OID.  The core (reference or fast)
    is chosen at link time: the wrappers take the core's functions as a record. *)
From Verif Require Import Base ModelUtils ModelParams ModelHash ModelWots ModelCommons ModelCore ModelCoreFast.

(** xmss_core.h: the functions provided by either core. *)
Record core := mkCore {
  c_sk_bytes : xmss_params -> N;
  c_xmss_keypair : xmss_params -> bytes -> bytes -> (nat -> N) -> res (Z * bytes * bytes);
  c_xmss_sign : xmss_params -> bytes -> bytes -> nat -> bytes -> res sign_out;
  c_xmssmt_keypair : xmss_params -> bytes -> bytes -> (nat -> N) -> res (Z * bytes * bytes);
  c_xmssmt_sign : xmss_params -> bytes -> bytes -> nat -> bytes -> res sign_out }.

Section WithEnv.
Context {E : Env}.

(** xmss_core.c / xmss_core_fast.c *)
Definition ref_core : core :=
  mkCore ref_core_sk_bytes ref_xmss_core_keypair ref_xmss_core_sign
         ref_xmssmt_core_keypair ref_xmssmt_core_sign.
Definition fast_core : core :=
  mkCore fast_core_sk_bytes fast_xmss_core_keypair fast_xmss_core_sign
         fast_xmssmt_core_keypair fast_xmssmt_core_sign.

(** The automatic variable [xmss_params params;], uninitialised. *)
Definition uninit_params : xmss_params :=
  mkParams (junk 0) (junk 1) (junk 2) (junk 3) (junk 4) (junk 5) (junk 6) (junk 7) (junk 8)
           (junk 9) (junk 10) (junk 11) (junk 12) (junk 13) (junk 14) (junk 15) (junk 16).

(** xmss.c:18-24 = 68-71: bytes [(oid >> 24) & 0xFF, ..., oid & 0xFF] *)
Definition oid_to_bytes (oid : N) : bytes :=
  [N.land (N.shiftr oid 24) 255; N.land (N.shiftr oid 16) 255;
   N.land (N.shiftr oid 8) 255; N.land oid 255]%N.

(** xmss.c:36-38 = 53-55 = 83-85 = 100-102: [oid |= b[3-i] << (8*i)], the byte promoted to
    int: shifting a byte >= 0x80 left by 24 does not fit an int, UB. *)
Definition oid_of_bytes (b : bytes) : res N :=
  let* b3 := rdc b 3 in
  let* b2 := rdc b 2 in
  let* b1 := rdc b 1 in
  let* b0 := rdc b 0 in
  if (128 <=? b0)%N then UB else
  Ok (N.lor (N.lor (N.lor b3 (N.shiftl b2 8)) (N.shiftl b1 16)) (N.shiftl b0 24)).

(** xmss.c:10-26 and 60-73 *)
Definition keypair_wrapper (parse : (xmss_params -> N) -> xmss_params -> N -> res (option xmss_params))
    (skb : xmss_params -> N)
    (kp : xmss_params -> bytes -> bytes -> (nat -> N) -> res (Z * bytes * bytes))
    (pk sk : bytes) (oid : N) (r : nat -> N) : res (Z * bytes * bytes) :=
  let* op := parse skb uninit_params oid in
  match op with
  | None => Ok ((-1)%Z, pk, sk)
  | Some p =>
      let* pk := wr pk 0 (oid_to_bytes oid) in
      let* sk := wr sk 0 (oid_to_bytes oid) in
      let* (rc, pk', sk') := kp p (skipn XMSS_OID_LEN pk) (skipn XMSS_OID_LEN sk) r in
      Ok (rc, firstn XMSS_OID_LEN pk ++ pk', firstn XMSS_OID_LEN sk ++ sk')
  end.
Definition xmss_keypair (c : core) := keypair_wrapper xmss_parse_oid (c_sk_bytes c) (c_xmss_keypair c).
Definition xmssmt_keypair (c : core) := keypair_wrapper xmssmt_parse_oid (c_sk_bytes c) (c_xmssmt_keypair c).

(** xmss.c:28-43 and 75-90 *)
Definition sign_wrapper (parse : (xmss_params -> N) -> xmss_params -> N -> res (option xmss_params))
    (skb : xmss_params -> N)
    (sg : xmss_params -> bytes -> bytes -> nat -> bytes -> res sign_out)
    (sk sm : bytes) (smlen : nat) (m : bytes) : res sign_out :=
  let* oid := oid_of_bytes sk in
  let* op := parse skb uninit_params oid in
  match op with
  | None => Ok (mkSign (-1) sk sm smlen)
  | Some p =>
      let* o := sg p (skipn XMSS_OID_LEN sk) sm smlen m in
      Ok (mkSign (so_rc o) (firstn XMSS_OID_LEN sk ++ so_sk o) (so_sm o) (so_smlen o))
  end.
Definition xmss_sign (c : core) := sign_wrapper xmss_parse_oid (c_sk_bytes c) (c_xmss_sign c).
Definition xmssmt_sign (c : core) := sign_wrapper xmssmt_parse_oid (c_sk_bytes c) (c_xmssmt_sign c).

(** xmss.c:45-60 and 92-107; [mlen] is the value of *mlen before the call. *)
Definition open_wrapper (parse : (xmss_params -> N) -> xmss_params -> N -> res (option xmss_params))
    (skb : xmss_params -> N) (m : bytes) (mlen : nat) (sm pk : bytes) : res open_out :=
  let* oid := oid_of_bytes pk in
  let* op := parse skb uninit_params oid in
  match op with
  | None => Ok (mkOpen (-1) m mlen)
  | Some p => xmssmt_core_sign_open p m sm (skipn XMSS_OID_LEN pk)
  end.
Definition xmss_sign_open (c : core) := open_wrapper xmss_parse_oid (c_sk_bytes c).
Definition xmssmt_sign_open (c : core) := open_wrapper xmssmt_parse_oid (c_sk_bytes c).

End WithEnv.
