(** Model of params.c / params.h.  The two tables and the switch statements were
    transcribed mechanically from the C text. *)
From Verif Require Import Base.
From Coq Require Import String.
Local Open Scope N_scope.

(** params.h:7-9 *)
Definition XMSS_SHA2 : N := 0.
Definition XMSS_SHAKE128 : N := 1.
Definition XMSS_SHAKE256 : N := 2.
(** params.h:12 *)
Definition XMSS_OID_LEN : nat := 4%nat.

(** params.h:15-33: struct xmss_params (all fields unsigned int, sk_bytes unsigned long long). *)
Record xmss_params := mkParams {
  f_func : N; f_n : N; f_padding_len : N; f_wots_w : N; f_wots_log_w : N;
  f_wots_len1 : N; f_wots_len2 : N; f_wots_len : N; f_wots_sig_bytes : N;
  f_full_height : N; f_tree_height : N; f_d : N; f_index_bytes : N;
  f_sig_bytes : N; f_pk_bytes : N; f_sk_bytes : N; f_bds_k : N }.

(** The same fields as [nat], for use as lengths, offsets and loop bounds. *)
Definition func (p : xmss_params) : N := f_func p.
Definition p_n (p : xmss_params) : nat := N.to_nat (f_n p).
Definition padding_len (p : xmss_params) : nat := N.to_nat (f_padding_len p).
Definition wots_w (p : xmss_params) : nat := N.to_nat (f_wots_w p).
Definition wots_log_w (p : xmss_params) : nat := N.to_nat (f_wots_log_w p).
Definition wots_len1 (p : xmss_params) : nat := N.to_nat (f_wots_len1 p).
Definition wots_len2 (p : xmss_params) : nat := N.to_nat (f_wots_len2 p).
Definition wots_len (p : xmss_params) : nat := N.to_nat (f_wots_len p).
Definition wots_sig_bytes (p : xmss_params) : nat := N.to_nat (f_wots_sig_bytes p).
Definition full_height (p : xmss_params) : nat := N.to_nat (f_full_height p).
Definition tree_height (p : xmss_params) : nat := N.to_nat (f_tree_height p).
Definition p_d (p : xmss_params) : nat := N.to_nat (f_d p).
Definition index_bytes (p : xmss_params) : nat := N.to_nat (f_index_bytes p).
Definition sig_bytes (p : xmss_params) : nat := N.to_nat (f_sig_bytes p).
Definition pk_bytes (p : xmss_params) : nat := N.to_nat (f_pk_bytes p).
Definition sk_bytes (p : xmss_params) : nat := N.to_nat (f_sk_bytes p).
Definition bds_k (p : xmss_params) : nat := N.to_nat (f_bds_k p).

(** params.c:7-76 xmss_str_to_oid: chain of strcmp tests; None is the return value -1 ( *oid untouched). *)
Definition xmss_str_to_oid (s : string) : option N :=
  if (String.eqb s "XMSS-SHA2_10_256"%string) then Some 1
  else if (String.eqb s "XMSS-SHA2_16_256"%string) then Some 2
  else if (String.eqb s "XMSS-SHA2_20_256"%string) then Some 3
  else if (String.eqb s "XMSS-SHA2_10_512"%string) then Some 4
  else if (String.eqb s "XMSS-SHA2_16_512"%string) then Some 5
  else if (String.eqb s "XMSS-SHA2_20_512"%string) then Some 6
  else if (String.eqb s "XMSS-SHAKE_10_256"%string) then Some 7
  else if (String.eqb s "XMSS-SHAKE_16_256"%string) then Some 8
  else if (String.eqb s "XMSS-SHAKE_20_256"%string) then Some 9
  else if (String.eqb s "XMSS-SHAKE_10_512"%string) then Some 10
  else if (String.eqb s "XMSS-SHAKE_16_512"%string) then Some 11
  else if (String.eqb s "XMSS-SHAKE_20_512"%string) then Some 12
  else if (String.eqb s "XMSS-SHA2_10_192"%string) then Some 13
  else if (String.eqb s "XMSS-SHA2_16_192"%string) then Some 14
  else if (String.eqb s "XMSS-SHA2_20_192"%string) then Some 15
  else if (String.eqb s "XMSS-SHAKE256_10_256"%string) then Some 16
  else if (String.eqb s "XMSS-SHAKE256_16_256"%string) then Some 17
  else if (String.eqb s "XMSS-SHAKE256_20_256"%string) then Some 18
  else if (String.eqb s "XMSS-SHAKE256_10_192"%string) then Some 19
  else if (String.eqb s "XMSS-SHAKE256_16_192"%string) then Some 20
  else if (String.eqb s "XMSS-SHAKE256_20_192"%string) then Some 21
  else None.

(** params.c:78-252 xmssmt_str_to_oid: chain of strcmp tests; None is the return value -1 ( *oid untouched). *)
Definition xmssmt_str_to_oid (s : string) : option N :=
  if (String.eqb s "XMSSMT-SHA2_20/2_256"%string) then Some 1
  else if (String.eqb s "XMSSMT-SHA2_20/4_256"%string) then Some 2
  else if (String.eqb s "XMSSMT-SHA2_40/2_256"%string) then Some 3
  else if (String.eqb s "XMSSMT-SHA2_40/4_256"%string) then Some 4
  else if (String.eqb s "XMSSMT-SHA2_40/8_256"%string) then Some 5
  else if (String.eqb s "XMSSMT-SHA2_60/3_256"%string) then Some 6
  else if (String.eqb s "XMSSMT-SHA2_60/6_256"%string) then Some 7
  else if (String.eqb s "XMSSMT-SHA2_60/12_256"%string) then Some 8
  else if (String.eqb s "XMSSMT-SHA2_20/2_512"%string) then Some 9
  else if (String.eqb s "XMSSMT-SHA2_20/4_512"%string) then Some 10
  else if (String.eqb s "XMSSMT-SHA2_40/2_512"%string) then Some 11
  else if (String.eqb s "XMSSMT-SHA2_40/4_512"%string) then Some 12
  else if (String.eqb s "XMSSMT-SHA2_40/8_512"%string) then Some 13
  else if (String.eqb s "XMSSMT-SHA2_60/3_512"%string) then Some 14
  else if (String.eqb s "XMSSMT-SHA2_60/6_512"%string) then Some 15
  else if (String.eqb s "XMSSMT-SHA2_60/12_512"%string) then Some 16
  else if (String.eqb s "XMSSMT-SHAKE_20/2_256"%string) then Some 17
  else if (String.eqb s "XMSSMT-SHAKE_20/4_256"%string) then Some 18
  else if (String.eqb s "XMSSMT-SHAKE_40/2_256"%string) then Some 19
  else if (String.eqb s "XMSSMT-SHAKE_40/4_256"%string) then Some 20
  else if (String.eqb s "XMSSMT-SHAKE_40/8_256"%string) then Some 21
  else if (String.eqb s "XMSSMT-SHAKE_60/3_256"%string) then Some 22
  else if (String.eqb s "XMSSMT-SHAKE_60/6_256"%string) then Some 23
  else if (String.eqb s "XMSSMT-SHAKE_60/12_256"%string) then Some 24
  else if (String.eqb s "XMSSMT-SHAKE_20/2_512"%string) then Some 25
  else if (String.eqb s "XMSSMT-SHAKE_20/4_512"%string) then Some 26
  else if (String.eqb s "XMSSMT-SHAKE_40/2_512"%string) then Some 27
  else if (String.eqb s "XMSSMT-SHAKE_40/4_512"%string) then Some 28
  else if (String.eqb s "XMSSMT-SHAKE_40/8_512"%string) then Some 29
  else if (String.eqb s "XMSSMT-SHAKE_60/3_512"%string) then Some 30
  else if (String.eqb s "XMSSMT-SHAKE_60/6_512"%string) then Some 31
  else if (String.eqb s "XMSSMT-SHAKE_60/12_512"%string) then Some 32
  else if (String.eqb s "XMSSMT-SHA2_20/2_192"%string) then Some 33
  else if (String.eqb s "XMSSMT-SHA2_20/4_192"%string) then Some 34
  else if (String.eqb s "XMSSMT-SHA2_40/2_192"%string) then Some 35
  else if (String.eqb s "XMSSMT-SHA2_40/4_192"%string) then Some 36
  else if (String.eqb s "XMSSMT-SHA2_40/8_192"%string) then Some 37
  else if (String.eqb s "XMSSMT-SHA2_60/3_192"%string) then Some 38
  else if (String.eqb s "XMSSMT-SHA2_60/6_192"%string) then Some 39
  else if (String.eqb s "XMSSMT-SHA2_60/12_192"%string) then Some 40
  else if (String.eqb s "XMSSMT-SHAKE256_20/2_256"%string) then Some 41
  else if (String.eqb s "XMSSMT-SHAKE256_20/4_256"%string) then Some 42
  else if (String.eqb s "XMSSMT-SHAKE256_40/2_256"%string) then Some 43
  else if (String.eqb s "XMSSMT-SHAKE256_40/4_256"%string) then Some 44
  else if (String.eqb s "XMSSMT-SHAKE256_40/8_256"%string) then Some 45
  else if (String.eqb s "XMSSMT-SHAKE256_60/3_256"%string) then Some 46
  else if (String.eqb s "XMSSMT-SHAKE256_60/6_256"%string) then Some 47
  else if (String.eqb s "XMSSMT-SHAKE256_60/12_256"%string) then Some 48
  else if (String.eqb s "XMSSMT-SHAKE256_20/2_192"%string) then Some 49
  else if (String.eqb s "XMSSMT-SHAKE256_20/4_192"%string) then Some 50
  else if (String.eqb s "XMSSMT-SHAKE256_40/2_192"%string) then Some 51
  else if (String.eqb s "XMSSMT-SHAKE256_40/4_192"%string) then Some 52
  else if (String.eqb s "XMSSMT-SHAKE256_40/8_192"%string) then Some 53
  else if (String.eqb s "XMSSMT-SHAKE256_60/3_192"%string) then Some 54
  else if (String.eqb s "XMSSMT-SHAKE256_60/6_192"%string) then Some 55
  else if (String.eqb s "XMSSMT-SHAKE256_60/12_192"%string) then Some 56
  else None.

(** params.c:254-375, switch assigning params->func; None is the default branch (return -1). *)
Definition xmss_parse_oid_func (oid : N) : option N :=
  match oid with
  | 1 | 2 | 3 | 4 | 5 | 6 | 13 | 14 | 15 => Some XMSS_SHA2
  | 7 | 8 | 9 => Some XMSS_SHAKE128
  | 10 | 11 | 12 | 16 | 17 | 18 | 19 | 20 | 21 => Some XMSS_SHAKE256
  | _ => None
  end.

(** params.c:254-375, switch assigning params->n; None is the default branch (return -1). *)
Definition xmss_parse_oid_n (oid : N) : option N :=
  match oid with
  | 13 | 14 | 15 | 19 | 20 | 21 => Some 24
  | 1 | 2 | 3 | 7 | 8 | 9 | 16 | 17 | 18 => Some 32
  | 4 | 5 | 6 | 10 | 11 | 12 => Some 64
  | _ => None
  end.

(** params.c:254-375, switch assigning params->padding_len; None is the default branch (return -1). *)
Definition xmss_parse_oid_padding_len (oid : N) : option N :=
  match oid with
  | 13 | 14 | 15 | 19 | 20 | 21 => Some 4
  | 1 | 2 | 3 | 7 | 8 | 9 | 16 | 17 | 18 => Some 32
  | 4 | 5 | 6 | 10 | 11 | 12 => Some 64
  | _ => None
  end.

(** params.c:254-375, switch assigning params->full_height; None is the default branch (return -1). *)
Definition xmss_parse_oid_full_height (oid : N) : option N :=
  match oid with
  | 1 | 4 | 7 | 10 | 13 | 16 | 19 => Some 10
  | 2 | 5 | 8 | 11 | 14 | 17 | 20 => Some 16
  | 3 | 6 | 9 | 12 | 15 | 18 | 21 => Some 20
  | _ => None
  end.

(** params.c:377-698, switch assigning params->func; None is the default branch (return -1). *)
Definition xmssmt_parse_oid_func (oid : N) : option N :=
  match oid with
  | 1 | 2 | 3 | 4 | 5 | 6 | 7 | 8 | 9 | 10 | 11 | 12 | 13 | 14 | 15 | 16 | 33 | 34 | 35 | 36 | 37 | 38 | 39 | 40 => Some XMSS_SHA2
  | 17 | 18 | 19 | 20 | 21 | 22 | 23 | 24 => Some XMSS_SHAKE128
  | 25 | 26 | 27 | 28 | 30 | 29 | 31 | 32 | 41 | 42 | 43 | 44 | 45 | 46 | 47 | 48 | 49 | 50 | 51 | 52 | 53 | 54 | 55 | 56 => Some XMSS_SHAKE256
  | _ => None
  end.

(** params.c:377-698, switch assigning params->n; None is the default branch (return -1). *)
Definition xmssmt_parse_oid_n (oid : N) : option N :=
  match oid with
  | 33 | 34 | 35 | 36 | 37 | 38 | 39 | 40 | 49 | 50 | 51 | 52 | 53 | 54 | 55 | 56 => Some 24
  | 1 | 2 | 3 | 4 | 5 | 6 | 7 | 8 | 17 | 18 | 19 | 20 | 21 | 22 | 23 | 24 | 41 | 42 | 43 | 44 | 45 | 46 | 47 | 48 => Some 32
  | 9 | 10 | 11 | 12 | 13 | 14 | 15 | 16 | 25 | 26 | 27 | 28 | 29 | 30 | 31 | 32 => Some 64
  | _ => None
  end.

(** params.c:377-698, switch assigning params->padding_len; None is the default branch (return -1). *)
Definition xmssmt_parse_oid_padding_len (oid : N) : option N :=
  match oid with
  | 33 | 34 | 35 | 36 | 37 | 38 | 39 | 40 | 49 | 50 | 51 | 52 | 53 | 54 | 55 | 56 => Some 4
  | 1 | 2 | 3 | 4 | 5 | 6 | 7 | 8 | 17 | 18 | 19 | 20 | 21 | 22 | 23 | 24 | 41 | 42 | 43 | 44 | 45 | 46 | 47 | 48 => Some 32
  | 9 | 10 | 11 | 12 | 13 | 14 | 15 | 16 | 25 | 26 | 27 | 28 | 29 | 30 | 31 | 32 => Some 64
  | _ => None
  end.

(** params.c:377-698, switch assigning params->full_height; None is the default branch (return -1). *)
Definition xmssmt_parse_oid_full_height (oid : N) : option N :=
  match oid with
  | 1 | 2 | 9 | 10 | 17 | 18 | 25 | 26 | 33 | 34 | 41 | 42 | 49 | 50 => Some 20
  | 3 | 4 | 5 | 11 | 12 | 13 | 19 | 20 | 21 | 27 | 28 | 29 | 35 | 36 | 37 | 43 | 44 | 45 | 51 | 52 | 53 => Some 40
  | 6 | 7 | 8 | 14 | 15 | 16 | 22 | 23 | 24 | 30 | 31 | 32 | 38 | 39 | 40 | 46 | 47 | 48 | 54 | 55 | 56 => Some 60
  | _ => None
  end.

(** params.c:377-698, switch assigning params->d; None is the default branch (return -1). *)
Definition xmssmt_parse_oid_d (oid : N) : option N :=
  match oid with
  | 1 | 3 | 9 | 11 | 17 | 19 | 25 | 27 | 33 | 35 | 41 | 43 | 49 | 51 => Some 2
  | 2 | 4 | 10 | 12 | 18 | 20 | 26 | 28 | 34 | 36 | 42 | 44 | 50 | 52 => Some 4
  | 5 | 13 | 21 | 29 | 37 | 45 | 53 => Some 8
  | 6 | 14 | 22 | 30 | 38 | 46 | 54 => Some 3
  | 7 | 15 | 23 | 31 | 39 | 47 | 55 => Some 6
  | 8 | 16 | 24 | 32 | 40 | 48 | 56 => Some 12
  | _ => None
  end.

(** params.c:710-753 xmss_xmssmt_initialize_params; [core_sk_bytes] is the
    xmss_xmssmt_core_sk_bytes of the linked core (reference or fast).  Result: return
    code and the structure afterwards.  All arithmetic on unsigned int wraps (u32).
    Division by d = 0 is UB. *)
Definition xmss_xmssmt_initialize_params (core_sk_bytes : xmss_params -> N) (p : xmss_params)
  : res (Z * xmss_params) :=
  if f_d p =? 0 then UB else
  let th := f_full_height p / f_d p in
  let wots : option (N * N) :=       (* (wots_log_w, wots_len2) *)
    if f_wots_w p =? 4 then Some (2, 5)
    else if f_wots_w p =? 16 then Some (4, 3)
    else if f_wots_w p =? 256 then Some (8, 2)
    else None in
  match wots with
  | None =>
      Ok ((-1)%Z, mkParams (f_func p) (f_n p) (f_padding_len p) (f_wots_w p) (f_wots_log_w p)
             (f_wots_len1 p) (f_wots_len2 p) (f_wots_len p) (f_wots_sig_bytes p)
             (f_full_height p) th (f_d p) (f_index_bytes p) (f_sig_bytes p) (f_pk_bytes p)
             (f_sk_bytes p) (f_bds_k p))
  | Some (log_w, len2) =>
      let len1 := u32 (8 * f_n p) / log_w in
      let len := u32 (len1 + len2) in
      let wsig := u32 (len * f_n p) in
      let ib := if f_d p =? 1 then 4 else u32 (f_full_height p + 7) / 8 in
      let sig := u32 (ib + f_n p + f_d p * wsig + f_full_height p * f_n p) in
      let pkb := u32 (2 * f_n p) in
      let p1 := mkParams (f_func p) (f_n p) (f_padding_len p) (f_wots_w p) log_w
             len1 len2 len wsig (f_full_height p) th (f_d p) ib sig pkb
             (f_sk_bytes p) (f_bds_k p) in
      Ok (0%Z, mkParams (f_func p) (f_n p) (f_padding_len p) (f_wots_w p) log_w
             len1 len2 len wsig (f_full_height p) th (f_d p) ib sig pkb
             (u64 (core_sk_bytes p1)) (f_bds_k p))
  end.

(** params.c:254-375 xmss_parse_oid: the switches run in order, each default returns -1;
    then d = 1, wots_w = 16, bds_k = 0.  [p0] is the structure passed in (normally
    uninitialised).  None: return value -1 (the caller must not use the structure).
    Simplification: the partially written structure of a failing call is not returned. *)
Definition xmss_parse_oid (core_sk_bytes : xmss_params -> N) (p0 : xmss_params) (oid : N)
  : res (option xmss_params) :=
  match xmss_parse_oid_func oid with None => Ok None | Some fu =>
  match xmss_parse_oid_n oid, xmss_parse_oid_padding_len oid with
  | Some n_, Some pad =>
  match xmss_parse_oid_full_height oid with None => Ok None | Some fh =>
    let p := mkParams fu n_ pad 16 (f_wots_log_w p0) (f_wots_len1 p0) (f_wots_len2 p0)
               (f_wots_len p0) (f_wots_sig_bytes p0) fh (f_tree_height p0) 1
               (f_index_bytes p0) (f_sig_bytes p0) (f_pk_bytes p0) (f_sk_bytes p0) 0 in
    let* r := xmss_xmssmt_initialize_params core_sk_bytes p in
    match r with (rc, p') => if Z.eqb rc 0 then Ok (Some p') else Ok None end
  end
  | _, _ => Ok None end
  end.

(** params.c:377-698 xmssmt_parse_oid, same shape with d taken from a fourth switch. *)
Definition xmssmt_parse_oid (core_sk_bytes : xmss_params -> N) (p0 : xmss_params) (oid : N)
  : res (option xmss_params) :=
  match xmssmt_parse_oid_func oid with None => Ok None | Some fu =>
  match xmssmt_parse_oid_n oid, xmssmt_parse_oid_padding_len oid with
  | Some n_, Some pad =>
  match xmssmt_parse_oid_full_height oid with None => Ok None | Some fh =>
  match xmssmt_parse_oid_d oid with None => Ok None | Some dd =>
    let p := mkParams fu n_ pad 16 (f_wots_log_w p0) (f_wots_len1 p0) (f_wots_len2 p0)
               (f_wots_len p0) (f_wots_sig_bytes p0) fh (f_tree_height p0) dd
               (f_index_bytes p0) (f_sig_bytes p0) (f_pk_bytes p0) (f_sk_bytes p0) 0 in
    let* r := xmss_xmssmt_initialize_params core_sk_bytes p in
    match r with (rc, p') => if Z.eqb rc 0 then Ok (Some p') else Ok None end
  end end
  | _, _ => Ok None end
  end.
