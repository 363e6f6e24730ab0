(** Vocabulary of the property theorems: the public functions in both flavours, buffer
    sizes, and histories of calls. *)
From Verif Require Import Base ModelParams ModelCore ModelCommons ModelXmss SpecRfc SpecParams.

Section Api.
Context {E : Env}.

(** [mt = false]: xmss_*, [mt = true]: xmssmt_* (xmss.h:6-66); [c]: the core linked in. *)
Definition keypair (mt : bool) (c : core) := if mt then xmssmt_keypair c else xmss_keypair c.
Definition sign (mt : bool) (c : core) := if mt then xmssmt_sign c else xmss_sign c.
Definition sign_open (mt : bool) (c : core) := if mt then xmssmt_sign_open c else xmss_sign_open c.
(** one of the two cores *)
Definition a_core (c : core) : Prop := c = ref_core \/ c = fast_core.
(** parameter lookup as done by the command-line tools *)
Definition str_to_oid (mt : bool) := if mt then xmssmt_str_to_oid else xmss_str_to_oid.
Definition parse_oid (mt : bool) := if mt then xmssmt_parse_oid else xmss_parse_oid.

(** *** Sizes (RFC 8391), without the 4 OID bytes *)
Definition sig_size (r : row) : nat := sp_sig_bytes (row_sp r).
Definition pk_size (r : row) : nat := 2 * r_n r.
Definition idx_size (r : row) : nat := sp_ib (row_sp r).
Definition sk_size (r : row) : nat := idx_size r + 4 * r_n r.      (* reference core *)

(** *** Keys in the RFC's terms *)
Definition public_key (r : row) (rt seed : bytes) : bytes := toByte (r_oid r) 4 ++ rt ++ seed.
Definition secret_key (r : row) (idx : N) (sk_seed sk_prf rt seed : bytes) : bytes :=
  toByte (r_oid r) 4 ++ toByte idx (idx_size r) ++ sk_seed ++ sk_prf ++ rt ++ seed.

(** A key of the parameter set [r]: [len] bytes after the OID *)
Definition key_of (r : row) (len : nat) (k : bytes) : Prop :=
  length k = 4 + len /\ firstn 4 k = toByte (r_oid r) 4 /\ bytes_ok k.
(** the fields of a secret key *)
Definition sk_index (r : row) (sk : bytes) : N := os2ip (firstn (idx_size r) (skipn 4 sk)).
Definition sk_field (r : row) (i : nat) (sk : bytes) : bytes := firstn (r_n r) (skipn (4 + idx_size r + i * r_n r) sk).

(** *** Histories *)
(** one call of sign: message, output buffer and value of *smlen before the call *)
Record call := mkCall { c_m : bytes; c_sm : bytes; c_smlen : nat }.
Definition call_ok (r : row) (c : call) : Prop := sig_size r + length (c_m c) <= length (c_sm c).

(** successive sign calls on one secret key: the key at the end and all results *)
Fixpoint sign_run (mt : bool) (c : core) (sk : bytes) (cs : list call) : res (bytes * list sign_out) :=
  match cs with
  | [] => Ok (sk, [])
  | k :: cs' =>
      let* o := sign mt c sk (c_sm k) (c_smlen k) (c_m k) in
      let* (sk', os) := sign_run mt c (so_sk o) cs' in
      Ok (sk', o :: os)
  end.
(** what the caller passes on: the first *smlen bytes of the buffer *)
Definition signed_message (o : sign_out) : bytes := firstn (so_smlen o) (so_sm o).
(** the index carried by a signed message *)
Definition sm_index (r : row) (sm : bytes) : N := os2ip (firstn (idx_size r) sm).

End Api.
