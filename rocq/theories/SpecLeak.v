(** What an observer of timing and cache behaviour is allowed to learn. *)
From Verif Require Import Base ModelCore SpecRfc SpecParams SpecApi SpecFast ModelLeak.

(** The observer who is not shown the inside of a signing chain: which chain it is and that it
    was computed remain visible, how long it took does not. *)
Definition hide (e : event) : event := match e with Chain _ => Chain [] | _ => e end.

(** Two secret keys that may differ only where the mask says "secret" ([false]). *)
Inductive agree : list bool -> bytes -> bytes -> Prop :=
  | agree_end : agree [] [] []
  | agree_public m x y b : agree m x y -> agree (true :: m) (b :: x) (b :: y)
  | agree_secret m x y b c : agree m x y -> agree (false :: m) (b :: x) (c :: y).

Definition public (k : nat) : list bool := repeat true k.
Definition secret (k : nat) : list bool := repeat false k.

(** One traversal state in a key of the fast core (xmss_core_fast.c:38-78): the nodes (stack,
    auth, keep, treehash nodes, retain) are secret, the counters and levels are not. *)
Definition state_mask (n h k retained : nat) : list bool :=
  secret ((h + 1) * n) ++ public 4 ++ public (h + 1) ++ secret (h * n) ++ secret (h / 2 * n) ++
  concat (repeat (public 7 ++ secret n) (h - k)) ++ secret (retained * n) ++ public 4.

(** The key of the fast core without its OID: the index is public; SK_SEED, SK_PRF, root, PUB_SEED,
    the nodes and the stored one-time signatures are not. *)
Definition core_mask (n h d ib wots k retained : nat) : list bool :=
  public ib ++ secret (4 * n) ++ concat (repeat (state_mask n h k retained) (2 * d - 1)) ++ secret ((d - 1) * wots).

(** The key of a table row (bds_k = 0, nothing retained), OID included. *)
Definition fast_mask {E : Env} (r : row) : list bool :=
  public 4 ++ core_mask (r_n r) (r_h r / r_d r) (r_d r) (idx_size r) (sp_len (row_sp r) * r_n r) 0 0.
(** The key of the reference core: OID, index, and four secret strings. *)
Definition ref_mask {E : Env} (r : row) : list bool := public 4 ++ public (idx_size r) ++ secret (4 * r_n r).

(** The public bytes of a buffer; the secret ones are replaced by zeros. *)
Fixpoint shown (m : list bool) (b : bytes) : bytes :=
  match m, b with
  | true :: m, x :: b => x :: shown m b
  | false :: m, _ :: b => 0%N :: shown m b
  | _, _ => []
  end.

(** Successive sign calls on one secret key: what is seen of each. *)
Fixpoint watch (sign : bytes -> bytes -> nat -> bytes -> leak sign_out) (sk : bytes) (cs : list call) : list (list event) :=
  match cs with
  | [] => []
  | c :: cs =>
      let o := sign sk (c_sm c) (c_smlen c) (c_m c) in
      trace o :: match outcome o with Ok o => watch sign (so_sk o) cs | _ => [] end
  end.

(** Calls of the same shape: messages and buffers of the same lengths. *)
Definition same_shape (c c' : call) : Prop :=
  length (c_m c) = length (c_m c') /\ length (c_sm c) = length (c_sm c') /\ c_smlen c = c_smlen c'.

(** The insides of the chains in a trace, in order. *)
Fixpoint chains (t : list event) : list (list event) :=
  match t with [] => [] | Chain u :: t => u :: chains t | _ :: t => chains t end.
(** What is seen of a chain of [k] steps: it depends on [k] and the parameter set alone. *)
Definition chain_trace (P : sparams) (k : nat) : list event :=
  let prf := [Access 0 (sp_n P); Access 0 32; Hash (sp_pad P + sp_n P + 32)] in
  Access 0 (sp_n P) :: concat (repeat (Branch true :: prf ++ prf ++ [Access 0 (sp_n P); Hash (sp_pad P + 2 * sp_n P)]) k).

(** The lengths of all chains of a signature, computed as the verifier does (RFC 8391,
    Algorithms 10, 13 and 17) from the public key and the signed message. *)
Definition chain_lengths_public (P : sparams) (rt seed sig m : bytes) : list nat :=
  let idx := os2ip (firstn (sp_ib P) sig) in
  let M := H_msg P (firstn (sp_n P) (skipn (sp_ib P) sig)) rt idx m in
  concat (map (fun i => wots_digits P (mt_climb P seed idx M 0 i (skipn (sp_ib P + sp_n P) sig))) (seq 0 (sp_d P))).
