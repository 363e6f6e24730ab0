(** Vocabulary for the statements about single components. *)
From Verif Require Import Base ModelUtils ModelParams ModelCore ModelCoreFast SpecRfc SpecParams.

(** the numeric code of a hash function in params.h:7-9 *)
Definition fn_code (f : hash_fn) : N := match f with SHA2 => 0 | SHAKE_128 => 1 | SHAKE_256 => 2 end.

(** The caller has filled in the choice [c]; the other fields are arbitrary. *)
Definition inputs (c : custom) (p0 : xmss_params) : Prop :=
  f_func p0 = fn_code (cu_fn c) /\ f_n p0 = N.of_nat (cu_n c) /\ f_padding_len p0 = N.of_nat (cu_pad c) /\
  f_wots_w p0 = N.of_nat (2 ^ cu_lgw c) /\ f_full_height p0 = N.of_nat (cu_h c) /\ f_d p0 = N.of_nat (cu_d c).

(** [p] is what parameter initialisation (of either core; the fast one with bds_k = 0, as
    for all standard parameter sets) made of the choice [c]. *)
Definition configured (c : custom) (p : xmss_params) : Prop :=
  exists p0, inputs c p0 /\
    (xmss_xmssmt_initialize_params ref_core_sk_bytes p0 = Ok (0%Z, p) \/
     (f_bds_k p0 = 0%N /\ xmss_xmssmt_initialize_params fast_core_sk_bytes p0 = Ok (0%Z, p))).

(** Secret key size of the fast core: index and 4 n-byte strings, 2d-1 traversal states
    (stack of th+1 nodes, its 4-byte fill and th+1 levels, th authentication nodes, th/2
    kept nodes, th-k tree hash instances of n+7 bytes, 2^k-k-1 retained nodes, a 4-byte leaf
    number) and d-1 stored WOTS+ signatures. *)
Definition fast_sk_size (P : sparams) (k : nat) : N :=
  let n := N.of_nat (sp_n P) in let t := N.of_nat (sp_th P) in let d := N.of_nat (sp_d P) in let k := N.of_nat k in
  (N.of_nat (sp_ib P) + 4 * n +
   (2 * d - 1) * ((t + 1) * n + 4 + (t + 1) + t * n + t / 2 * n + (t - k) * (7 + n) + (2 ^ k - k - 1) * n + 4) +
   (d - 1) * (N.of_nat (sp_len P) * n))%N.

(** C addresses: eight 32-bit words.  [same_key a b]: they agree on layer, tree, type and
    key pair (words 0 to 4), which is all a caller has to provide. *)
Definition addr_ok (a : addr) : Prop :=
  (a0 a < 2 ^ 32 /\ a1 a < 2 ^ 32 /\ a2 a < 2 ^ 32 /\ a3 a < 2 ^ 32 /\ a4 a < 2 ^ 32 /\ a5 a < 2 ^ 32 /\ a6 a < 2 ^ 32 /\ a7 a < 2 ^ 32)%N.
Definition same_key (a b : addr) : Prop :=
  a0 a = a0 b /\ a1 a = a1 b /\ a2 a = a2 b /\ a3 a = a3 b /\ a4 a = a4 b.
(** the 64-bit tree number in an address *)
Definition tree_word (a : addr) : N := (a1 a * 2 ^ 32 + a2 a)%N.

(** the value of a list of base-w digits, most significant first *)
Definition digits_value (w : nat) (ds : list nat) : N :=
  fold_left (fun acc x => acc * N.of_nat w + N.of_nat x)%N ds 0%N.

(** lexicographic order *)
Definition lex_lt (a b : bytes) : Prop :=
  exists pre x y s t, a = pre ++ x :: s /\ b = pre ++ y :: t /\ (x < y)%N.

