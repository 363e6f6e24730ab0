(** Vocabulary of C72: how many times one API call runs the hash function (SHA-2 or SHAKE).
    [ModelWork] holds the same program as the model with a counter in core_hash; [out] is what
    the call does, [hashes] the count.  All parameter sets have w = 16: 2n+3 chains of 15
    steps; one chain step takes 3 hash calls (key, mask, hash), one inner node 4. *)
From Coq Require Import NArith Arith.
From Verif Require Import SpecParams.

Definition chains (r : row) : N := N.of_nat (2 * r_n r + 3).
Definition chain_steps (r : row) : N := (3 * 15 * chains r)%N.
(** a leaf: the chains' starts, all their steps, and the L-tree *)
Definition leaf_hashes (r : row) : N := (chains r + chain_steps r + 4 * (chains r - 1))%N.
Definition tree_hashes (r : row) : N :=
  let l := (2 ^ N.of_nat (r_h r / r_d r))%N in (l * leaf_hashes r + 4 * (l - 1))%N.
(** the most a verification may take: the message, and for each layer all the chain steps, the
    L-tree and the authentication path *)
Definition open_hashes (r : row) : N :=
  (1 + N.of_nat (r_d r) * (chain_steps r + 4 * (chains r - 1) + 4 * N.of_nat (r_h r / r_d r)))%N.
(** the most signing may take: the randomness, the message, and for each layer a one-time
    signature and a tree *)
Definition sign_hashes (r : row) : N := (2 + N.of_nat (r_d r) * (chains r + chain_steps r + tree_hashes r))%N.
(** signing and verifying together: a chain is walked once from its start to its end *)
Definition both_hashes (r : row) : N :=
  (3 + N.of_nat (r_d r) * (leaf_hashes r + tree_hashes r + 4 * N.of_nat (r_h r / r_d r)))%N.
(** the fast core: one tree-hash update computes a leaf and merges it with at most as many
    nodes as fit on the stack of a layer *)
Definition step_hashes (r : row) : N := (leaf_hashes r + 4 * (N.of_nat (r_h r / r_d r) + 1))%N.
(** the most signing with the fast core may take: the randomness, the message, a one-time
    signature, half a tree height of updates, and one (XMSS) or two (XMSSMT) more *)
Definition fast_sign_hashes (mt : bool) (r : row) : N :=
  (2 + (chains r + chain_steps r) + N.of_nat (r_h r / r_d r / 2 + (if mt then 2 else 1)) * step_hashes r)%N.
(** key generation with the fast core: a tree for each layer, and a one-time signature of each
    root but the top one *)
Definition fast_key_min (r : row) : N := (N.of_nat (r_d r) * tree_hashes r + N.of_nat (r_d r - 1) * chains r)%N.
Definition fast_key_max (r : row) : N := (N.of_nat (r_d r) * tree_hashes r + N.of_nat (r_d r - 1) * (chains r + chain_steps r))%N.
