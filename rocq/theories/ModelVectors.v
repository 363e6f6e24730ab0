(** Model of test/vectors.c (built as test/vectors with the reference core), by what it prints.
    As in ModelTests, parameters left uninitialised are modelled as UB. *)
From Verif Require Import Base ModelUtils ModelParams ModelFips202 ModelHash ModelWots ModelCommons ModelCore ModelXmss ModelUi.
From Coq Require Import Ascii String DecimalString.
Local Open Scope string_scope.

Section WithEnv.
Context {E : Env}.

(** printf("%x", v) for v < 16 *)
Definition hex_digit (v : N) : string := String (ascii_of_N (if (v <? 10)%N then 48 + v else 87 + v)%N) EmptyString.
(** printf("%d ", v) for 0 <= v < 2^31 *)
Definition print_int (v : N) : string := NilEmpty.string_of_uint (N.to_uint v) ++ " ".

(** test/vectors.c:17-21 print_hex *)
Definition print_hex (buf : bytes) (len : nat) : res string :=
  forN len 0 (fun i out => let* b := rdc buf i in Ok (out ++ hex_digit (b / 16) ++ hex_digit (N.land b 15))) "".

(** test/vectors.c:23-27 print_hash *)
Definition print_hash (buf : bytes) (len : nat) : res string :=
  let* inp := rd buf 0 len in
  let* tmp := shake128 10 inp in
  print_hex tmp 10.

(** test/vectors.c:29-69 vectors_xmss.  [1 << (full_height - 1)] is an int expression: undefined
    when it is shifted into or beyond the sign bit (full_height = 0 included). *)
Definition vectors_xmss (oid : N) (mt : bool) : res string :=
  let* op := ui_parse_oid mt ref_core_sk_bytes uninit_params oid in
  match op with
  | None => UB
  | Some p =>
      let seed := map (fun i => u8 (N.of_nat i)) (seq 0 (3 * p_n p)) in
      let* (_, pk, sk) := xmssmt_core_seed_keypair p (uninit (pk_bytes p)) (uninit (sk_bytes p)) seed in
      if ((full_height p =? 0) || (32 <=? full_height p))%nat then UB else
      let* sk := wr sk 0 (ull_to_bytes (index_bytes p) (2 ^ N.of_nat (full_height p - 1))%N) in
      let* o := (if mt then ref_xmssmt_core_sign else ref_xmss_core_sign) p sk (uninit (sig_bytes p + 1)) 0 [37%N] in
      let* h1 := print_hash pk (pk_bytes p) in
      let* h2 := print_hash (so_sm o) (sig_bytes p) in
      Ok ((if mt then "XMSSMT " else "XMSS ") ++ print_int oid ++ h1 ++ " " ++ h2 ++ String (ascii_of_N 10) "")
  end.

(** test/vectors.c:71-115 vectors_wots; [500000000*i] and [400000000*i] are unsigned. *)
Definition vectors_wots (oid : N) : res string :=
  let* op := xmss_parse_oid ref_core_sk_bytes uninit_params oid in
  match op with
  | None => UB
  | Some p =>
      let word k i := u32 (k * i)%N in
      let adr k := mkAddr (word k 0%N) (word k 1%N) (word k 2%N) (word k 3%N) (word k 4%N) (word k 5%N) (word k 6%N) (word k 7%N) in
      let addr := adr 500000000%N in
      let addr2 := adr 400000000%N in
      let m := map (fun i => u8 (3 * N.of_nat i)) (seq 0 (p_n p)) in
      let pub_seed := map (fun i => u8 (2 * N.of_nat i)) (seq 0 (p_n p)) in
      let sk_seed := map (fun i => u8 (N.of_nat i)) (seq 0 (p_n p)) in
      let* (pk, addr) := wots_pkgen p sk_seed pub_seed addr in
      let* (sig, addr) := wots_sign p m sk_seed pub_seed addr in
      let* h1 := print_hash pk (wots_sig_bytes p) in
      let* h2 := print_hash sig (wots_sig_bytes p) in
      let* (leaf, _, _) := gen_leaf_wots p sk_seed pub_seed addr addr2 in
      let* h3 := print_hash leaf (p_n p) in
      Ok ("WOTS+ " ++ print_int oid ++ h1 ++ " " ++ h2 ++ " " ++ h3 ++ String (ascii_of_N 10) "")
  end.

(** test/vectors.c:117-127 main: the output.  The loops [oid = 1; oid <= 0x15; oid += 3] and
    [oid = 2; oid <= 56; oid += 8] run seven times each. *)
Definition vectors_main : res string :=
  let* out := forN 7 0 (fun k out => let* l := vectors_wots (1 + 3 * N.of_nat k) in Ok (out ++ l)) "" in
  let* out := forN 7 0 (fun k out => let* l := vectors_xmss (2 + 8 * N.of_nat k) true in Ok (out ++ l)) out in
  forN 7 0 (fun k out => let* l := vectors_xmss (1 + 3 * N.of_nat k) false in Ok (out ++ l)) out.
End WithEnv.
