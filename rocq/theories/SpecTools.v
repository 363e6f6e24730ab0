(** Vocabulary for crash histories with the fast core. *)
From Verif Require Import Base SpecRfc SpecParams SpecApi.

(** The part of a signature behind the WOTS+ signature of the lowest layer: the lowest
    authentication path and all that the upper layers contribute. *)
Definition upper_part {E : Env} (r : row) (sm : bytes) : bytes :=
  skipn (idx_size r + r_n r + sp_len (row_sp r) * r_n r) (firstn (sig_size r) sm).

(** the authentication path that a signature shows in layer [k] *)
Definition layer_auth (P : sparams) (sig : bytes) (k : nat) : bytes :=
  firstn (sp_th P * sp_n P) (skipn (sp_len P * sp_n P) (skipn (k * ((sp_len P + sp_th P) * sp_n P)) (skipn (sp_ib P + sp_n P) sig))).
