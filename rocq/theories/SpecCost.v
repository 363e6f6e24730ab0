(** Vocabulary of C71: how many leaves (WOTS+ public keys) one API call computes.  A leaf is
    the unit of work of the scheme: each costs len chains of w-1 hashes and an L-tree, and
    everything else a call does is small beside it.  [ModelCost] holds the same program as the
    model with a counter in gen_leaf_wots; [out] is what the call does, [leaves] the count. *)
From Coq Require Import NArith Arith.
From Verif Require Import SpecParams.

(** leaves of one tree of the parameter set *)
Definition tree_leaves (r : row) : N := (2 ^ N.of_nat (r_h r / r_d r))%N.
(** what a fast-core sign call may compute: half a tree height of tree-hash updates, one leaf
    for the round, and with several layers one for the next tree *)
Definition sign_effort (mt : bool) (r : row) : N := N.of_nat (r_h r / r_d r / 2 + (if mt then 2 else 1)).
(** the calls after which half a tree height of layers, and one more, change their tree *)
Definition many_trees_end (r : row) (i : N) : Prop :=
  ((i + 1) mod 2 ^ N.of_nat (r_h r / r_d r * (r_h r / r_d r / 2 + 1)) = 0)%N.
