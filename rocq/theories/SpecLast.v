(** Vocabulary for the signature with the last index. *)
From Verif Require Import Base ModelXmss ModelCoreFast SpecRfc SpecParams SpecApi SpecSec SpecForge.

Section Last.
Context {E : Env}.

(** The signature part of the answer to the last call on a key, for the reference and the fast
    core: nothing of the key is in it. *)
Inductive last_sig (r : row) (m : bytes) : core -> bytes -> Prop :=
| last_ref :
    let P := row_sp r in let z := repeat 0%N (r_n r) in let i := (2 ^ N.of_nat (r_h r) - 1)%N in
    last_sig r m ref_core (repeat 255%N (idx_size r) ++ skipn (idx_size r) (mt_sign P z z z z i m))
| last_fast :
    let P := row_sp r in let z := repeat 0%N (r_n r) in let i := (2 ^ N.of_nat (r_h r) - 1)%N in let R := PRF P z (toByte i 32) in
    last_sig r m fast_core
      (toByte i (idx_size r) ++ R ++ concat (wots_sig P z 0 (tree_of P i 0) (leaf_of P i 0) z (H_msg P R z i m)) ++
       repeat 0%N (sp_th P * r_n r + (r_d r - 1) * (sp_len P * r_n r + sp_th P * r_n r))).

(** What it takes for that signature [sig] to verify under a key with these values: a collision
    with the computation of the root, a collision of the randomiser of this key with that of the
    zero key, a collision with the verification of the right signature, or a chain value none of
    the released signatures shows. *)
Definition last_broken (r : row) (sk_seed sk_prf rt seed m sig : bytes) (released : list (bytes * bytes)) : Prop :=
  let P := row_sp r in let z := repeat 0%N (r_n r) in let i := (2 ^ N.of_nat (r_h r) - 1)%N in
  let forged := verify_queries P seed rt sig m in
  let hsig := mt_sign P sk_seed sk_prf rt seed i m in
  hash_collision P seed [root_query P seed sk_seed] forged \/
  hashed P RolePrf z (toByte i 32) <> hashed P RolePrf sk_prf (toByte i 32) /\
  sp_hash P (hashed P RolePrf z (toByte i 32)) = sp_hash P (hashed P RolePrf sk_prf (toByte i 32)) \/
  hash_collision P seed (verify_queries P seed rt hsig m) forged \/ inverted P seed rt released hsig m forged.
End Last.
