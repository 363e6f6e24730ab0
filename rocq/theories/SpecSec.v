(** Vocabulary for the security statements: the hash calls a verification makes, and what
    it means that two verifications break the hash function.  Collisions of a compressing
    hash function always exist, so "a collision exists" would say nothing: the statements
    are about the inputs that actually occur in two given runs. *)
From Verif Require Import Base SpecRfc SpecParams.

(** ** The strings that are hashed (RFC 8391 section 5.1) *)
Inductive role := RoleF | RoleH | RoleMsg | RolePrf | RoleKeygen.
Definition role_tag (r : role) : N := match r with RoleF => 0 | RoleH => 1 | RoleMsg => 2 | RolePrf => 3 | RoleKeygen => 4 end.
(** tag padded to the prefix length, n-byte key, rest *)
Definition hashed (P : sparams) (r : role) (key m : bytes) : bytes := toByte (role_tag r) (sp_pad P) ++ key ++ m.
(** the prefix can hold the tag; keys are n bytes long (3n for the message hash) *)
Definition key_len (P : sparams) (r : role) : nat := match r with RoleMsg => 3 * sp_n P | _ => sp_n P end.

(** ** Addresses within the ranges of their fields: 4 bytes each, 8 for the tree *)
Definition adrs_ok (a : adrs) : Prop :=
  match a with
  | OTS l t o c h k | LTREE l t o c h k => (l < 2 ^ 32 /\ t < 2 ^ 64 /\ o < 2 ^ 32 /\ c < 2 ^ 32 /\ h < 2 ^ 32 /\ k < 2 ^ 32)%N
  | HTREE l t c h k => (l < 2 ^ 32 /\ t < 2 ^ 64 /\ c < 2 ^ 32 /\ h < 2 ^ 32 /\ k < 2 ^ 32)%N
  end.

(** The addresses of a key pair: all chain steps, secret key elements, L-tree nodes and tree
    nodes of all trees on all layers. *)
Inductive key_adrs (P : sparams) : adrs -> Prop :=
| ka_chain l t o c s k : l < sp_d P -> (t < 2 ^ N.of_nat (sp_h P - sp_th P * (l + 1)))%N -> (o < 2 ^ N.of_nat (sp_th P))%N ->
    c < sp_len P -> s < sp_w P - 1 -> (k <= 1)%N -> key_adrs P (OTS (N.of_nat l) t o (N.of_nat c) (N.of_nat s) k)
| ka_ltree l t o j i k : l < sp_d P -> (t < 2 ^ N.of_nat (sp_h P - sp_th P * (l + 1)))%N -> (o < 2 ^ N.of_nat (sp_th P))%N ->
    j < sp_len P -> i < sp_len P -> (k <= 2)%N -> key_adrs P (LTREE (N.of_nat l) t o (N.of_nat j) (N.of_nat i) k)
| ka_tree l t j i k : l < sp_d P -> (t < 2 ^ N.of_nat (sp_h P - sp_th P * (l + 1)))%N ->
    j < sp_th P -> (i < 2 ^ N.of_nat (sp_th P - 1 - j))%N -> (k <= 2)%N -> key_adrs P (HTREE (N.of_nat l) t (N.of_nat j) i k).

(** ** The hash calls of a verification *)
Inductive query :=
| Qmsg (r rt : bytes) (idx : N) (m : bytes)   (* H_msg *)
| Qnode (a : adrs) (x : bytes)                (* H with the key of address a on the masked input x *)
| Qstep (a : adrs) (x : bytes).               (* F with the key of address a on the masked input x *)

Section Trace.
Variable P : sparams.
Variable seed : bytes.

Definition node_query (A : N -> adrs) (l r : bytes) : query :=
  Qnode (A 0%N) (xorb_spec l (PRF P seed (adrs_bytes (A 1%N))) ++ xorb_spec r (PRF P seed (adrs_bytes (A 2%N)))).
Definition step_query (A : N -> adrs) (x : bytes) : query :=
  Qstep (A 0%N) (xorb_spec x (PRF P seed (adrs_bytes (A 1%N)))).
(** the hash value of a query *)
Definition answer (q : query) : bytes :=
  match q with
  | Qmsg r rt idx m => H_msg P r rt idx m
  | Qnode a x => H P (PRF P seed (adrs_bytes a)) x
  | Qstep a x => F P (PRF P seed (adrs_bytes a)) x
  end.
(** where a query is made: distinct places use distinct keys *)
Definition place (q : query) : option adrs :=
  match q with Qmsg _ _ _ _ => None | Qnode a _ => Some a | Qstep a _ => Some a end.

Fixpoint chain_queries (L T o : N) (X : bytes) (c i s : nat) : list query :=
  match s with
  | O => []
  | S s' => chain_queries L T o X c i s' ++ [step_query (OTS L T o (N.of_nat c) (N.of_nat (i + s'))) (chain P seed L T o X c i s')]
  end.
Definition wots_queries (L T o : N) (M : bytes) (sig : list bytes) : list query :=
  concat (map (fun c => let b := nth c (wots_digits P M) 0 in
                        chain_queries L T o (nth c sig []) c b (sp_w P - 1 - b)) (seq 0 (sp_len P))).
Fixpoint level_queries (L T o : N) (height i : nat) (nodes : list bytes) : list query :=
  match nodes with
  | a :: b :: rest => node_query (LTREE L T o (N.of_nat height) (N.of_nat i)) a b :: level_queries L T o height (S i) rest
  | _ => []
  end.
Fixpoint ltree_queries (L T o : N) (k height : nat) (nodes : list bytes) : list query :=
  match k with
  | O => []
  | S k' => if length nodes <=? 1 then [] else
      level_queries L T o height 0 nodes ++ ltree_queries L T o k' (S height) (ltree_level P seed L T o height 0 nodes)
  end.
Fixpoint climb_queries (L T : N) (nd : bytes) (j : nat) (i : N) (auth : list bytes) : list query :=
  match auth with
  | [] => []
  | a :: rest =>
      let A := HTREE L T (N.of_nat j) (i / 2) in
      (if N.even i then node_query A nd a else node_query A a nd) ::
      climb_queries L T (if N.even i then RAND_HASH P seed A nd a else RAND_HASH P seed A a nd) (S j) (i / 2)%N rest
  end.
Definition root_queries (L T i : N) (M : bytes) (sig auth : list bytes) : list query :=
  let pk := wots_pkFromSig P seed L T i M sig in
  wots_queries L T i M sig ++ ltree_queries L T i (sp_len P) 0 pk ++
  climb_queries L T (ltree P seed L T i (sp_len P) 0 pk) 0 i auth.
Fixpoint layer_queries (idx : N) (M : bytes) (k cnt : nat) (sigs : bytes) : list query :=
  match cnt with
  | O => []
  | S cnt' =>
      let sig := pieces P (sp_len P) sigs in
      let auth := pieces P (sp_th P) (skipn (sp_len P * sp_n P) sigs) in
      root_queries (N.of_nat k) (tree_of P idx k) (leaf_of P idx k) M sig auth ++
      layer_queries idx (rootFromSig P seed (N.of_nat k) (tree_of P idx k) (leaf_of P idx k) M sig auth) (S k) cnt'
        (skipn ((sp_len P + sp_th P) * sp_n P) sigs)
  end.

(** the parts of a signature *)
Definition sig_index (sig : bytes) : N := os2ip (firstn (sp_ib P) sig).
Definition sig_R (sig : bytes) : bytes := firstn (sp_n P) (skipn (sp_ib P) sig).
Definition sig_layers (sig : bytes) : bytes := skipn (sp_ib P + sp_n P) sig.
(** chain value number [c] in the WOTS+ signature of layer [k] *)
Definition sig_chain (k c : nat) (sig : bytes) : bytes :=
  firstn (sp_n P) (skipn (c * sp_n P) (skipn (k * ((sp_len P + sp_th P) * sp_n P)) (sig_layers sig))).
(** what layer [k] is claimed to sign *)
Definition signed_at (rt : bytes) (sig m : bytes) (k : nat) : bytes :=
  mt_climb P seed (sig_index sig) (H_msg P (sig_R sig) rt (sig_index sig) m) 0 k (sig_layers sig).

(** the WOTS+ public key the verifier computes for layer [k] *)
Definition layer_pk (rt : bytes) (sig m : bytes) (k : nat) : list bytes :=
  wots_pkFromSig P seed (N.of_nat k) (tree_of P (sig_index sig) k) (leaf_of P (sig_index sig) k) (signed_at rt sig m k)
    (pieces P (sp_len P) (skipn (k * ((sp_len P + sp_th P) * sp_n P)) (sig_layers sig))).

Definition verify_queries (rt sig m : bytes) : list query :=
  Qmsg (sig_R sig) rt (sig_index sig) m ::
  layer_queries (sig_index sig) (H_msg P (sig_R sig) rt (sig_index sig) m) 0 (sp_d P) (sig_layers sig).

(** ** Breaking the hash *)
(** two runs query the same function at the same place with different inputs and get the same answer *)
Definition collision (q1 q2 : list query) : Prop :=
  exists a b, In a q1 /\ In b q2 /\ a <> b /\ place a = place b /\ answer a = answer b /\
    match a, b with Qmsg _ _ _ _, Qmsg _ _ _ _ | Qnode _ _, Qnode _ _ | Qstep _ _, Qstep _ _ => True | _, _ => False end.

(** The second run computes, by a query at a place the first run never queries, the chain
    value number [c] that the first signature shows in layer [k] (there at chain position
    [s + 1], with chain positions up to [s] not revealed). *)
Definition preimage (rt sig1 m1 : bytes) (q1 q2 : list query) : Prop :=
  exists k c s x, k < sp_d P /\ c < sp_len P /\
    let a := OTS (N.of_nat k) (tree_of P (sig_index sig1) k) (leaf_of P (sig_index sig1) k) (N.of_nat c) (N.of_nat s) 0 in
    In (Qstep a x) q2 /\ (forall y, ~ In (Qstep a y) q1) /\
    nth c (wots_digits P (signed_at rt sig1 m1 k)) 0 = S s /\
    answer (Qstep a x) = sig_chain k c sig1.
End Trace.
