(** The core functions (xmss_core.h) called directly with a parameter structure that was
    initialised from the caller's own choice of hash function, n, w, heights and layers. *)
From Verif Require Import Base ModelParams ModelCore ModelCoreFast SpecRfc SpecParams SpecApi SpecComp SpecFast.

Definition keypair_fn := bytes -> bytes -> (nat -> N) -> res (Z * bytes * bytes).
Definition sign_fn := bytes -> bytes -> nat -> bytes -> res sign_out.

Section Direct.
Context {E : Env}.

(** The BDS parameter [k] is usable with trees of height [H] and the key fits an unsigned int. *)
Definition bds_usable (c : custom) (k : nat) : Prop :=
  let H := cu_h c / cu_d c in
  k < H /\ (k <= 1 \/ Nat.Even (H - k)) /\ (fast_sk_size (custom_sp c) k < 2 ^ 32)%N.

(** [direct c p kp sg lim]: [p] is an initialised parameter structure for the choice [c],
    [kp] and [sg] are the key generation and signing functions of one core with it, and
    fewer than [lim] calls are the subject of the theorems.  The single-tree functions are
    used with d = 1 only, the multi-tree functions with any d. *)
Inductive direct (c : custom) : xmss_params -> keypair_fn -> sign_fn -> N -> Prop :=
| direct_ref_mt p0 p : inputs c p0 -> xmss_xmssmt_initialize_params ref_core_sk_bytes p0 = Ok (0%Z, p) ->
    direct c p (ref_xmssmt_core_keypair p) (ref_xmssmt_core_sign p) (2 ^ N.of_nat (cu_h c))
| direct_ref p0 p : cu_d c = 1 -> inputs c p0 -> xmss_xmssmt_initialize_params ref_core_sk_bytes p0 = Ok (0%Z, p) ->
    direct c p (ref_xmss_core_keypair p) (ref_xmss_core_sign p) (2 ^ N.of_nat (cu_h c))
| direct_fast_mt p0 p : inputs c p0 -> xmss_xmssmt_initialize_params fast_core_sk_bytes p0 = Ok (0%Z, p) ->
    bds_usable c (bds_k p0) -> 3 <= cu_h c / cu_d c ->
    direct c p (fast_xmssmt_core_keypair p) (fast_xmssmt_core_sign p)
      (2 ^ N.of_nat (cu_h c / cu_d c * Nat.min (cu_d c) ((cu_h c / cu_d c - bds_k p0) / 2 + 2)))
| direct_fast p0 p : cu_d c = 1 -> inputs c p0 -> xmss_xmssmt_initialize_params fast_core_sk_bytes p0 = Ok (0%Z, p) ->
    bds_usable c (bds_k p0) -> cu_h c <> 2 ->
    direct c p (fast_xmss_core_keypair p) (fast_xmss_core_sign p) (2 ^ N.of_nat (cu_h c)).

(** sizes and parts of keys and signatures for the choice [c] (no OID here) *)
Definition cu_ib (c : custom) : nat := sp_ib (custom_sp c).
Definition cu_sig (c : custom) : nat := cu_ib c + cu_n c + cu_d c * (sp_len (custom_sp c) + cu_h c / cu_d c) * cu_n c.
Definition cu_index (c : custom) (sk : bytes) : N := os2ip (firstn (cu_ib c) sk).
Definition cu_field (c : custom) (j : nat) (sk : bytes) : bytes := firstn (cu_n c) (skipn (cu_ib c + j * cu_n c) sk).
Definition fits (c : custom) (x : call) : Prop := cu_sig c + length (c_m x) <= length (c_sm x).
End Direct.
