(** Vocabulary for calls with message and signed message in one buffer. *)
From Verif Require Import Base ModelCommons ModelCore ModelXmss SpecRfc SpecParams SpecApi.
Section InPlace.
Context {E : Env}.
(** [len] bytes at [a] and [len] bytes at [b] do not overlap *)
Definition apart (a b len : nat) : Prop := a + len <= b \/ b + len <= a.
(** the message of [len] bytes at offset [om] of the buffer is [m] *)
Definition holds (sm : bytes) (om : nat) (m : bytes) : Prop := om + length m <= length sm /\ firstn (length m) (skipn om sm) = m.
(** the signed message [sm] with the last bytes of its signature replaced by what RFC 8391's
    message hash puts before the message: toByte(2,..) || r || root || index *)
Definition hash_prefix_over (r : row) (rt sm : bytes) : bytes :=
  let n := r_n r in let pad := sp_pad (row_sp r) in
  firstn (sig_size r - (pad + 3 * n)) sm ++
  (toByte 2 pad ++ firstn n (skipn (idx_size r) sm) ++ rt ++ toByte (sm_index r sm) n) ++ skipn (sig_size r) sm.
End InPlace.
