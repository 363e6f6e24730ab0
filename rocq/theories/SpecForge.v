(** Vocabulary for unforgeability over a whole history of released signatures (see SpecSec
    for hash queries, places and collisions). *)
From Verif Require Import Base SpecRfc SpecParams SpecSec.

Section Forge.
Variable P : sparams.
Variable seed : bytes.

(** A verification hashes some node to the public root at a place that belongs to no tree
    of the key pair. *)
Definition foreign_root (rt : bytes) (q : list query) : Prop :=
  exists a x, In (Qnode a x) q /\ answer P seed (Qnode a x) = rt /\ ~ key_adrs P a.

(** ** Collisions of the hash function itself *)
(** the strings that a query feeds to the hash function (for F and H: to derive the key,
    and with that key; the bit masks are in the masked input) *)
Definition hash_inputs (q : query) : list bytes :=
  match q with
  | Qmsg r rt idx m => [hashed P RoleMsg (r ++ rt ++ toByte idx (sp_n P)) m]
  | Qnode a x => [hashed P RolePrf seed (adrs_bytes a); hashed P RoleH (PRF P seed (adrs_bytes a)) x]
  | Qstep a x => [hashed P RolePrf seed (adrs_bytes a); hashed P RoleF (PRF P seed (adrs_bytes a)) x]
  end.
(** two different strings, one fed to the hash function by each side, with the same hash *)
Definition hash_collision (q1 q2 : list query) : Prop :=
  exists a b u v, In a q1 /\ In b q2 /\ In u (hash_inputs a) /\ In v (hash_inputs b) /\ u <> v /\ sp_hash P u = sp_hash P v.
(** the last hash of key generation: the root of the top tree from its two children *)
Definition root_query (sk_seed : bytes) : query :=
  let L := N.of_nat (sp_d P - 1) in let j := sp_th P - 1 in
  node_query P seed (HTREE L 0 (N.of_nat j) 0) (node P sk_seed seed L 0 j 0) (node P sk_seed seed L 0 j 1).

(** [released]: the (signature, message) pairs the signer has given out; [hsig] an honest
    signature of [m'].  The queries [q] contain a step at position [s] of chain [c] of the
    one-time key that [hsig] uses in layer [k], its answer is the honest chain value at
    position [s+1], and no released signature lets a verifier evaluate the chain at that
    position: a preimage that the released signatures do not show. *)
Definition inverted (rt : bytes) (released : list (bytes * bytes)) (hsig m' : bytes) (q : list query) : Prop :=
  exists k c s x, k < sp_d P /\ c < sp_len P /\
    let a := OTS (N.of_nat k) (tree_of P (sig_index P hsig) k) (leaf_of P (sig_index P hsig) k) (N.of_nat c) (N.of_nat s) 0 in
    In (Qstep a x) q /\
    (forall rs rm y, In (rs, rm) released -> ~ In (Qstep a y) (verify_queries P seed rt rs rm)) /\
    nth c (wots_digits P (signed_at P seed rt hsig m' k)) 0 = S s /\
    answer P seed (Qstep a x) = sig_chain P k c hsig.
End Forge.
