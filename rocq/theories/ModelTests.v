(** Model of the programs in test/: xmss.c (built as test/xmss, test/xmss_fast, test/xmssmt,
    test/xmssmt_fast), xmss_max_signatures.c (test/maxsigsxmss, test/maxsigsxmssmt),
    xmss_determinism.c, speed.c, wots.c and oid.c, by the value main returns.

    printf output is left out except where stated; malloc is assumed to succeed; the random
    bytes of all randombytes calls of a run are one stream [rnd], in call order. *)
From Verif Require Import Base ModelUtils ModelParams ModelHash ModelWots ModelCommons ModelCore ModelCoreFast ModelXmss ModelUi.
From Coq Require Import String.

(** #define XMSS_MLEN 32 (MLEN in xmss_determinism.c) *)
Definition XMSS_MLEN : nat := 32.

Section WithEnv.
Context {E : Env}.

(** memcmp(x, y, k) != 0 *)
Definition differ (x y : bytes) : bool := if list_eq_dec N.eq_dec x y then false else true.

(** The uint32_t left alone when the name lookup fails. *)
Definition uninit_oid : N := u32 (junk 0).

Section Tests.
Variable mt : bool.          (* compiled with -DXMSSMT *)
Variable c : core.           (* SOURCES or SOURCES_FAST *)

(** The common start of xmss.c:40-44 and xmss_max_signatures.c:44-48: look the name up, get the
    parameters.  The result of XMSS_PARSE_OID is ignored; [None] (parameters left
    uninitialised) is modelled as UB. *)
Definition test_params (name : string) : res (N * xmss_params) :=
  let oid := match ui_str_to_oid mt name with Some o => o | None => uninit_oid end in
  let* op := ui_parse_oid mt (c_sk_bytes c) uninit_params oid in
  match op with Some p => Ok (oid, p) | None => UB end.

(** sk, sm, mout, smlen, mlen, ret *)
Record tstate := mkT { t_sk : bytes; t_sm : bytes; t_mout : bytes; t_smlen : nat; t_mlen : nat; t_ret : Z }.

(** One iteration of test/xmss.c:57-127, without the part under XMSS_TEST_INVALIDSIG (lines
    109-126, [flip_hashes] below): nothing in the Makefile defines it. *)
Definition test_xmss_round (p : xmss_params) (pk m : bytes) (t : tstate) : res tstate :=
  let* o := ui_sign_fn mt c (t_sk t) (t_sm t) (t_smlen t) m in          (* 60; result ignored *)
  let ret := if Nat.eqb (so_smlen o) (sig_bytes p + XMSS_MLEN) then t_ret t else (-1)%Z in
  let* s := rd (so_sm o) 0 (so_smlen o) in
  let* oo := ui_open_fn mt c (t_mout t) (t_mlen t) s pk in              (* 72 *)
  let ret := if Z.eqb (oo_rc oo) 0 then ret else (-1)%Z in
  let ret := if Nat.eqb (oo_mlen oo) XMSS_MLEN then ret else (-1)%Z in  (* 81 *)
  let* mo := rd (oo_m oo) 0 XMSS_MLEN in
  let ret := if differ m mo then (-1)%Z else ret in                     (* 88 *)
  let* last := (if Nat.eqb (so_smlen o) 0 then UB else rdc (so_sm o) (so_smlen o - 1)) in
  let* sm := wrc (so_sm o) (so_smlen o - 1) (N.lxor last 1) in          (* 99 *)
  let* s := rd sm 0 (so_smlen o) in
  let* oo := ui_open_fn mt c (oo_m oo) (oo_mlen oo) s pk in             (* 100 *)
  let ret := if Z.eqb (oo_rc oo) 0 then (-1)%Z else ret in
  let* last := rdc sm (so_smlen o - 1) in
  let* sm := wrc sm (so_smlen o - 1) (N.lxor last 1) in                 (* 107 *)
  Ok (mkT (so_sk o) sm (oo_m oo) (so_smlen o) (oo_mlen oo) ret).

(** test/xmss.c:32-134; [nsig] is XMSS_SIGNATURES *)
Definition test_xmss (name : string) (nsig : nat) (rnd : nat -> N) : res Z :=
  let* (oid, p) := test_params name in
  let m := map rnd (seq 0 XMSS_MLEN) in
  let* (_, pk, sk) := ui_keypair_fn mt c (uninit (XMSS_OID_LEN + pk_bytes p)) (uninit (XMSS_OID_LEN + sk_bytes p)) oid (fun i => rnd (XMSS_MLEN + i)) in
  let* t := forN nsig 0 (fun _ => test_xmss_round p pk m)
    (mkT sk (uninit (sig_bytes p + XMSS_MLEN)) (uninit (sig_bytes p + XMSS_MLEN)) (N.to_nat (junk 0)) (N.to_nat (junk 1)) 0%Z) in
  Ok (t_ret t).

(** The loop of test/xmss.c:113-122, from j; [k] rounds of fuel.  [(int)(smlen - XMSS_MLEN)]
    is natural subtraction here: the bound is 0 or negative when smlen < XMSS_MLEN. *)
Fixpoint flip_hashes (p : xmss_params) (pk : bytes) (k j : nat) (t : tstate) : res tstate :=
  match k with
  | O => NoFuel
  | S k =>
      if Nat.ltb j (t_smlen t - XMSS_MLEN) then
        let* x := rdc (t_sm t) j in
        let* sm := wrc (t_sm t) j (N.lxor x 1) in                          (* 114 *)
        let* s := rd sm 0 (t_smlen t) in
        let* oo := ui_open_fn mt c (t_mout t) (t_mlen t) s pk in           (* 115 *)
        let* x := rdc sm j in
        let* sm := wrc sm j (N.lxor x 1) in                                (* 117, 121 *)
        if Z.eqb (oo_rc oo) 0
        then Ok (mkT (t_sk t) sm (oo_m oo) (t_smlen t) (oo_mlen oo) (-1)%Z)   (* 118-119 *)
        else flip_hashes p pk k (j + p_n p) (mkT (t_sk t) sm (oo_m oo) (t_smlen t) (oo_mlen oo) (t_ret t))
      else Ok t
  end.
(** One iteration of test/xmss.c:57-127 compiled with -DXMSS_TEST_INVALIDSIG *)
Definition test_xmss_round_invalid (p : xmss_params) (pk m : bytes) (t : tstate) : res tstate :=
  let* t := test_xmss_round p pk m t in
  flip_hashes p pk (S (t_smlen t)) 0 t.
(** test/xmss.c:32-134 compiled with -DXMSS_TEST_INVALIDSIG *)
Definition test_xmss_invalid (name : string) (nsig : nat) (rnd : nat -> N) : res Z :=
  let* (oid, p) := test_params name in
  let m := map rnd (seq 0 XMSS_MLEN) in
  let* (_, pk, sk) := ui_keypair_fn mt c (uninit (XMSS_OID_LEN + pk_bytes p)) (uninit (XMSS_OID_LEN + sk_bytes p)) oid (fun i => rnd (XMSS_MLEN + i)) in
  let* t := forN nsig 0 (fun _ => test_xmss_round_invalid p pk m)
    (mkT sk (uninit (sig_bytes p + XMSS_MLEN)) (uninit (sig_bytes p + XMSS_MLEN)) (N.to_nat (junk 0)) (N.to_nat (junk 1)) 0%Z) in
  Ok (t_ret t).

(** test/xmss_max_signatures.c: one call in the first loop (62-72) and in the second (75-96).
    The state is sk, sm, smlen, ret and what the second loop prints: the return code, "Index"
    (read at the start of sk, in front of which the OID stands) and the secret key. *)
Record mstate := mkM { m_sk : bytes; m_sm : bytes; m_smlen : nat; m_ret : Z; m_log : list (Z * N * bytes) }.
Definition max_round1 (m : bytes) (t : mstate) : res mstate :=
  let* o := ui_sign_fn mt c (m_sk t) (m_sm t) (m_smlen t) m in
  Ok (mkM (so_sk o) (so_sm o) (so_smlen o) (if Z.eqb (so_rc o) 0 then m_ret t else (-1)%Z) (m_log t)).
Definition max_round2 (p : xmss_params) (m : bytes) (t : mstate) : res mstate :=
  let* o := ui_sign_fn mt c (m_sk t) (m_sm t) (m_smlen t) m in
  let* ix := rd (so_sk o) 0 (index_bytes p) in
  let* idx := bytes_to_ull ix in
  Ok (mkM (so_sk o) (so_sm o) (so_smlen o) (if Z.eqb (so_rc o) 0 then (-1)%Z else m_ret t) (m_log t ++ [(so_rc o, idx, so_sk o)])).
(** test/xmss_max_signatures.c:35-102; [nsig] is XMSS_SIGNATURES *)
Definition test_max (name : string) (nsig : nat) (rnd : nat -> N) : res (Z * list (Z * N * bytes)) :=
  let* (oid, p) := test_params name in
  let m := map rnd (seq 0 XMSS_MLEN) in
  let* (_, pk, sk) := ui_keypair_fn mt c (uninit (XMSS_OID_LEN + pk_bytes p)) (uninit (XMSS_OID_LEN + sk_bytes p)) oid (fun i => rnd (XMSS_MLEN + i)) in
  let* t := forN nsig 0 (fun _ => max_round1 m) (mkM sk (uninit (sig_bytes p + XMSS_MLEN)) (N.to_nat (junk 0)) 0%Z []) in
  let* t := forN 2 nsig (fun _ => max_round2 p m) t in
  Ok (m_ret t, m_log t).

(** test/xmss_determinism.c:11-57 (always XMSS-SHA2_10_256 and the reference core; here any name and core) *)
Definition test_determinism (name : string) (rnd : nat -> N) : res Z :=
  let* (oid, p) := test_params name in
  let* (_, pk, sk) := ui_keypair_fn mt c (uninit (XMSS_OID_LEN + pk_bytes p)) (uninit (XMSS_OID_LEN + sk_bytes p)) oid rnd in
  let sk2 := sk in
  let m := map rnd (seq (3 * p_n p) XMSS_MLEN) in
  let* o1 := ui_sign_fn mt c sk (uninit (sig_bytes p + XMSS_MLEN)) (N.to_nat (junk 0)) m in
  let* o2 := ui_sign_fn mt c sk2 (uninit (sig_bytes p + XMSS_MLEN)) (so_smlen o1) m in
  let* s1 := rd (so_sm o1) 0 (sig_bytes p + XMSS_MLEN) in
  let* s2 := rd (so_sm o2) 0 (sig_bytes p + XMSS_MLEN) in
  Ok (if differ s1 s2 then (-1)%Z else 0%Z).

(** test/speed.c:81-159 without the timing: [nsig] signatures, then the last one is verified
    [nsig] times; [ret |= rc] on ints. *)
Definition test_speed (name : string) (nsig : nat) (rnd : nat -> N) : res Z :=
  match ui_str_to_oid mt name with
  | None => Ok (-1)%Z
  | Some oid =>
      let* op := ui_parse_oid mt (c_sk_bytes c) uninit_params oid in
      match op with
      | None => UB
      | Some p =>
          let m := map rnd (seq 0 XMSS_MLEN) in
          let* (_, pk, sk) := ui_keypair_fn mt c (uninit (XMSS_OID_LEN + pk_bytes p)) (uninit (XMSS_OID_LEN + sk_bytes p)) oid (fun i => rnd (XMSS_MLEN + i)) in
          let* (sk, sm, smlen) := forN nsig 0 (fun _ '(sk, sm, smlen) =>
            let* o := ui_sign_fn mt c sk sm smlen m in Ok (so_sk o, so_sm o, so_smlen o)) (sk, uninit (sig_bytes p + XMSS_MLEN), N.to_nat (junk 0)) in
          let* (_, _, ret) := forN nsig 0 (fun _ '(mout, mlen, ret) =>
            let* s := rd sm 0 smlen in
            let* oo := ui_open_fn mt c mout mlen s pk in Ok (oo_m oo, oo_mlen oo, Z.lor ret (oo_rc oo)))
            (uninit (sig_bytes p + XMSS_MLEN), N.to_nat (junk 1), 0%Z) in
          Ok ret
      end
  end.
End Tests.

(** The 32 random bytes read into [uint32_t addr[8]] (little-endian, as on the x86 machines
    the Makefile targets). *)
Definition word_le (b : nat -> N) (k : nat) : N := (b k + 256 * b (S k) + 65536 * b (S (S k)) + 16777216 * b (S (S (S k))))%N.
(** test/wots.c:9-43, with any OID (there 0x00000001) *)
Definition test_wots (c : core) (oid : N) (rnd : nat -> N) : res Z :=
  let* op := xmss_parse_oid (c_sk_bytes c) uninit_params oid in
  match op with
  | None => UB
  | Some p =>
      let n := p_n p in
      let seed := map rnd (seq 0 n) in
      let pub_seed := map rnd (seq n n) in
      let m := map rnd (seq (2 * n) n) in
      let w k := word_le (fun i => rnd (3 * n + i)) (4 * k) in
      let addr := mkAddr (w 0) (w 1) (w 2) (w 3) (w 4) (w 5) (w 6) (w 7) in
      let* (pk1, addr) := wots_pkgen p seed pub_seed addr in
      let* (sig, addr) := wots_sign p m seed pub_seed addr in
      let* (pk2, addr) := wots_pk_from_sig p sig m pub_seed addr in
      Ok (if differ pk1 pk2 then (-1)%Z else 0%Z)
  end.

(** test/oid.c:5-23: one CHECK_OID_XMSS / CHECK_OID_XMSSMT.  [None]: "return -1". *)
Definition check_oid (mt : bool) (c : core) (p : xmss_params) (name : string) : res (option xmss_params) :=
  match ui_str_to_oid mt name with
  | None => Ok None
  | Some oid => ui_parse_oid mt (c_sk_bytes c) p oid
  end.
Fixpoint check_oids (mt : bool) (c : core) (p : xmss_params) (names : list string) : res (option xmss_params) :=
  match names with
  | [] => Ok (Some p)
  | s :: names =>
      let* op := check_oid mt c p s in
      match op with None => Ok None | Some p => check_oids mt c p names end
  end.

(** the names in test/oid.c:31-51 *)
Definition oid_c_xmss : list string :=
    ["XMSS-SHA2_10_256";
     "XMSS-SHA2_16_256";
     "XMSS-SHA2_20_256";
     "XMSS-SHA2_10_512";
     "XMSS-SHA2_16_512";
     "XMSS-SHA2_20_512";
     "XMSS-SHAKE_10_256";
     "XMSS-SHAKE_16_256";
     "XMSS-SHAKE_20_256";
     "XMSS-SHAKE_10_512";
     "XMSS-SHAKE_16_512";
     "XMSS-SHAKE_20_512";
     "XMSS-SHA2_10_192";
     "XMSS-SHA2_16_192";
     "XMSS-SHA2_20_192";
     "XMSS-SHAKE256_10_256";
     "XMSS-SHAKE256_16_256";
     "XMSS-SHAKE256_20_256";
     "XMSS-SHAKE256_10_192";
     "XMSS-SHAKE256_16_192";
     "XMSS-SHAKE256_20_192"]%string.
(** the names in test/oid.c:55-110 *)
Definition oid_c_xmssmt : list string :=
    ["XMSSMT-SHA2_20/2_256";
     "XMSSMT-SHA2_20/4_256";
     "XMSSMT-SHA2_40/2_256";
     "XMSSMT-SHA2_40/4_256";
     "XMSSMT-SHA2_40/8_256";
     "XMSSMT-SHA2_60/3_256";
     "XMSSMT-SHA2_60/6_256";
     "XMSSMT-SHA2_60/12_256";
     "XMSSMT-SHA2_20/2_512";
     "XMSSMT-SHA2_20/4_512";
     "XMSSMT-SHA2_40/2_512";
     "XMSSMT-SHA2_40/4_512";
     "XMSSMT-SHA2_40/8_512";
     "XMSSMT-SHA2_60/3_512";
     "XMSSMT-SHA2_60/6_512";
     "XMSSMT-SHA2_60/12_512";
     "XMSSMT-SHAKE_20/2_256";
     "XMSSMT-SHAKE_20/4_256";
     "XMSSMT-SHAKE_40/2_256";
     "XMSSMT-SHAKE_40/4_256";
     "XMSSMT-SHAKE_40/8_256";
     "XMSSMT-SHAKE_60/3_256";
     "XMSSMT-SHAKE_60/6_256";
     "XMSSMT-SHAKE_60/12_256";
     "XMSSMT-SHAKE_20/2_512";
     "XMSSMT-SHAKE_20/4_512";
     "XMSSMT-SHAKE_40/2_512";
     "XMSSMT-SHAKE_40/4_512";
     "XMSSMT-SHAKE_40/8_512";
     "XMSSMT-SHAKE_60/3_512";
     "XMSSMT-SHAKE_60/6_512";
     "XMSSMT-SHAKE_60/12_512";
     "XMSSMT-SHA2_20/2_192";
     "XMSSMT-SHA2_20/4_192";
     "XMSSMT-SHA2_40/2_192";
     "XMSSMT-SHA2_40/4_192";
     "XMSSMT-SHA2_40/8_192";
     "XMSSMT-SHA2_60/3_192";
     "XMSSMT-SHA2_60/6_192";
     "XMSSMT-SHA2_60/12_192";
     "XMSSMT-SHAKE256_20/2_256";
     "XMSSMT-SHAKE256_20/4_256";
     "XMSSMT-SHAKE256_40/2_256";
     "XMSSMT-SHAKE256_40/4_256";
     "XMSSMT-SHAKE256_40/8_256";
     "XMSSMT-SHAKE256_60/3_256";
     "XMSSMT-SHAKE256_60/6_256";
     "XMSSMT-SHAKE256_60/12_256";
     "XMSSMT-SHAKE256_20/2_192";
     "XMSSMT-SHAKE256_20/4_192";
     "XMSSMT-SHAKE256_40/2_192";
     "XMSSMT-SHAKE256_40/4_192";
     "XMSSMT-SHAKE256_40/8_192";
     "XMSSMT-SHAKE256_60/3_192";
     "XMSSMT-SHAKE256_60/6_192";
     "XMSSMT-SHAKE256_60/12_192"]%string.
(** test/oid.c:25-114 *)
Definition test_oid (c : core) : res Z :=
  let* op := check_oids false c uninit_params oid_c_xmss in
  match op with
  | None => Ok (-1)%Z
  | Some p =>
      let* op := check_oids true c p oid_c_xmssmt in
      match op with None => Ok (-1)%Z | Some _ => Ok 0%Z end
  end.
End WithEnv.
