(** Two verifications under two public keys, possibly of two parameter sets that use the same
    hash function: the strings they hash, and what it means that they break the hash function. *)
From Verif Require Import Base SpecRfc SpecParams SpecSec SpecForge.

(** all strings fed to the hash function by queries under the public seed [seed] *)
Definition strings (P : sparams) (seed : bytes) (q : list query) : list bytes := flat_map (hash_inputs P seed) q.
(** two different strings, one hashed by each side, with the same hash *)
Definition strings_collide (h : bytes -> bytes) (s1 s2 : list bytes) : Prop :=
  exists u v, In u s1 /\ In v s2 /\ u <> v /\ h u = h v.
