(** Vocabulary for the verdicts of the repository's test programs. *)
From Verif Require Import Base SpecRfc SpecParams SpecApi SpecSec SpecForge.

(** [k] bytes of the random stream, from position [from] *)
Definition stream (rnd : nat -> N) (from k : nat) : bytes := map rnd (seq from k).

Section Tests.
Variable P : sparams.

(** flip the lowest bit of the last byte *)
Definition flipped (sm : bytes) : bytes := removelast sm ++ [N.lxor (last sm 0%N) 1].

(** Among the signatures 0 .. nsig-1 of m there is one whose verification, compared with the
    verification of the same signature on the flipped message, contains a collision of the hash
    function or shows a chain value that none of these signatures shows. *)
Definition flip_breaks (sk_seed sk_prf rt seed m : bytes) (nsig : nat) : Prop :=
  exists j, j < nsig /\
    let hsig := mt_sign P sk_seed sk_prf rt seed (N.of_nat j) m in
    let released := map (fun k => (mt_sign P sk_seed sk_prf rt seed (N.of_nat k) m, m)) (seq 0 nsig) in
    let forged := verify_queries P seed rt hsig (flipped m) in
    hash_collision P seed (verify_queries P seed rt hsig m) forged \/ inverted P seed rt released hsig m forged.

(** flip the lowest bit of byte [pos] *)
Definition flipped_at (pos : nat) (s : bytes) : bytes := firstn pos s ++ [N.lxor (nth pos s 0%N) 1] ++ skipn (S pos) s.

(** Among the signatures 0 .. nsig-1 of m there is one that, with the bit at one of the
    positions 0, n, 2n, ... flipped, verifies although it then breaks the hash function: its
    index k has no key and its root is a collision with the computation of the root; or it shows
    that the randomisers of two indices are equal; or, compared with the verification of the
    right signature with index k, its verification contains a collision of the hash function or
    shows a chain value that none of the signatures shows. *)
Definition hash_flip_breaks (sk_seed sk_prf rt seed m : bytes) (nsig : nat) : Prop :=
  exists j q, j < nsig /\ q * sp_n P < sp_sig_bytes P /\
    let bad := flipped_at (q * sp_n P) (mt_sign P sk_seed sk_prf rt seed (N.of_nat j) m) in
    let k := sig_index P bad in
    let hsig := mt_sign P sk_seed sk_prf rt seed k m in
    let released := map (fun k => (mt_sign P sk_seed sk_prf rt seed (N.of_nat k) m, m)) (seq 0 nsig) in
    let forged := verify_queries P seed rt bad m in
    mt_verify P rt seed bad m = true /\
    ((2 ^ N.of_nat (sp_h P) <= k)%N /\ hash_collision P seed [root_query P seed sk_seed] forged \/
     (k < 2 ^ N.of_nat (sp_h P))%N /\
       (toByte k 32 <> toByte (N.of_nat j) 32 /\ PRF P sk_prf (toByte k 32) = PRF P sk_prf (toByte (N.of_nat j) 32) \/
        hash_collision P seed (verify_queries P seed rt hsig m) forged \/ inverted P seed rt released hsig m forged)).

(** what the test checks: no signature 0 .. nsig-1 of m verifies on the flipped message, or with
    the bit at one of the positions 0, n, 2n, ... flipped *)
Definition flips_rejected (sk_seed sk_prf rt seed m : bytes) (nsig : nat) : Prop :=
  forall j, j < nsig -> let sig := mt_sign P sk_seed sk_prf rt seed (N.of_nat j) m in
    mt_verify P rt seed sig (flipped m) = false /\
    forall q, q * sp_n P < sp_sig_bytes P -> mt_verify P rt seed (flipped_at (q * sp_n P) sig) m = false.
End Tests.
