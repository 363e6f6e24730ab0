(** What the caller of a sign function sees besides the key buffer. *)
From Verif Require Import Base ModelCore.
(** return code, contents of the signed-message buffer, value stored in the length *)
Definition sign_answer (o : sign_out) : Z * bytes * nat := (so_rc o, so_sm o, so_smlen o).
