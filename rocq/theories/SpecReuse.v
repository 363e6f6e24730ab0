(** Forging from two signed messages that carry the same index, with the public key only. *)
From Verif Require Import Base SpecRfc SpecParams SpecApi SpecTools.
Section Reuse.
Context {E : Env}.
Variables (r : row) (pk : bytes).
Notation P := (row_sp r).
Definition pk_root : bytes := firstn (r_n r) (skipn 4 pk).
Definition pk_seed : bytes := skipn (4 + r_n r) pk.
(** the numbers that the WOTS+ signature in [sm] commits to: the digits of its message digest
    and their checksum (RFC 8391, Algorithm 5) *)
Definition sm_digits (sm : bytes) : list nat :=
  wots_digits P (H_msg P (firstn (r_n r) (skipn (idx_size r) sm)) pk_root (sm_index r sm) (skipn (sig_size r) sm)).
(** the strings of the lowest WOTS+ signature in [sm] *)
Definition sm_wots (sm : bytes) : list bytes := pieces P (sp_len P) (skipn (idx_size r + r_n r) sm).
(** for a message [m], randomised with [R] of the forger's choice, every string of the WOTS+
    signature is the string of [sm1] or [sm2] that is not too far in its chain, moved forward *)
Definition forge (sm1 sm2 R m : bytes) : bytes :=
  let i := sm_index r sm1 in
  let want := wots_digits P (H_msg P R pk_root i m) in
  let string c :=
    let from sm := chain P pk_seed 0 (tree_of P i 0) (leaf_of P i 0) (nth c (sm_wots sm) []) c (nth c (sm_digits sm) 0) (nth c want 0 - nth c (sm_digits sm) 0) in
    if nth c (sm_digits sm1) 0 <=? nth c want 0 then from sm1 else from sm2 in
  toByte i (idx_size r) ++ R ++ concat (map string (seq 0 (sp_len P))) ++ upper_part r sm1 ++ m.
(** in every chain one of the two is not too far *)
Definition can_forge (sm1 sm2 R m : bytes) : Prop :=
  let want := wots_digits P (H_msg P R pk_root (sm_index r sm1) m) in
  forall c, c < sp_len P -> nth c (sm_digits sm1) 0 <= nth c want 0 \/ nth c (sm_digits sm2) 0 <= nth c want 0.
End Reuse.
