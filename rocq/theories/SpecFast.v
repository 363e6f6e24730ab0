(** Vocabulary of the property theorems about the fast core (xmss_core_fast.c). *)
From Verif Require Import Base ModelParams ModelCore ModelCoreFast ModelXmss SpecRfc SpecParams SpecApi SpecComp.

Section Fast.
Context {E : Env}.

(** size of a secret key of the fast core, without the 4 OID bytes *)
Definition fast_size (r : row) : nat := N.to_nat (fast_sk_size (row_sp r) 0).

(** the two cores answered one call alike: same return code, same output buffer, same length *)
Definition same_answer (a b : sign_out) : Prop :=
  so_rc a = so_rc b /\ so_sm a = so_sm b /\ so_smlen a = so_smlen b.

(** at most two layers more than half the height of one tree: every XMSSMT parameter set
    except those with 8 layers of height 40 and 12 layers of height 60 *)
Definition few_layers (r : row) : Prop := r_d r <= r_h r / r_d r / 2 + 2.

End Fast.

(** *** Parameter structures filled in by the caller (with a BDS parameter k) *)
Section Custom.
Context {E : Env}.
(** successive sign calls of one core on a secret key without OID *)
Fixpoint core_run (sg : bytes -> bytes -> nat -> bytes -> res sign_out) (sk : bytes) (cs : list call) : res (bytes * list sign_out) :=
  match cs with
  | [] => Ok (sk, [])
  | k :: cs' =>
      let* o := sg sk (c_sm k) (c_smlen k) (c_m k) in
      let* (sk', os) := core_run sg (so_sk o) cs' in
      Ok (sk', o :: os)
  end.
End Custom.

(** *** Parameters of the fast core *)
(** How many calls the fast multi-tree core's schedule is good for: all 2^h of them when the
    layers are few, 2^(th * (th/2 + 2)) otherwise (2^20 for the sets 40/8 and 60/12). *)
Definition fast_limit (r : row) : N :=
  let th := r_h r / r_d r in (2 ^ N.of_nat (th * Nat.min (r_d r) (th / 2 + 2)))%N.

(** The two signers: the core, how many calls its answers are known to be the RFC's for, and
    the size of its secret key without the OID. *)
Inductive signer {E : Env} (r : row) : core -> N -> nat -> Prop :=
| signer_ref : signer r ref_core (2 ^ N.of_nat (r_h r))%N (sk_size r)
| signer_fast : signer r fast_core (fast_limit r) (fast_size r).

Section Params.
Context {E : Env}.
(** [p] is what the fast core works with: a parameter structure obtained from an accepted
    OID, or one initialised from the caller's own choice of values (any d, any BDS
    parameter [k] below the tree height, key size below 4 GB).  [P]: the same parameters in
    the RFC's terms. *)
Inductive fast_params : xmss_params -> sparams -> nat -> Prop :=
| fast_oid mt r p : In r (rows mt) -> parse_oid mt fast_core_sk_bytes uninit_params (r_oid r) = Ok (Some p) ->
    fast_params p (row_sp r) 0
| fast_custom c p0 p : custom_ok c -> inputs c p0 ->
    xmss_xmssmt_initialize_params fast_core_sk_bytes p0 = Ok (0%Z, p) ->
    bds_k p0 < cu_h c / cu_d c -> (fast_sk_size (custom_sp c) (bds_k p0) < 2 ^ 32)%N ->
    fast_params p (custom_sp c) (bds_k p0).
End Params.

(** *** Traversal states with arrays of the declared sizes and scalars in range of their C
    types as stored (4 bytes: stackoffset, next_leaf, next_idx; 1 byte: h, stackusage,
    completed) *)
Definition wf_instance (n : nat) (t : treehash_inst) : Prop :=
  th_h t < 256 /\ (th_next_idx t < 2 ^ 32)%N /\ th_stackusage t < 256 /\ (th_completed t < 256)%N /\ length (th_node t) = n.
Definition wf_state (n th k : nat) (s : bds_state) : Prop :=
  length (st_stack s) = (th + 1) * n /\ length (st_stacklevels s) = th + 1 /\
  length (st_auth s) = th * n /\ length (st_keep s) = th / 2 * n /\
  length (st_treehash s) = th - k /\ Forall (wf_instance n) (st_treehash s) /\
  length (st_retain s) = (2 ^ k - k - 1) * n /\
  (N.of_nat (st_stackoffset s) < 2 ^ 32)%N /\ (st_next_leaf s < 2 ^ 32)%N.
(** the 2d-1 states and the d-1 stored WOTS+ signatures *)
Definition wf_traversal (P : sparams) (k : nat) (ss : list bds_state) (ws : bytes) : Prop :=
  length ss = 2 * sp_d P - 1 /\ Forall (wf_state (sp_n P) (sp_th P) k) ss /\
  length ws = (sp_d P - 1) * (sp_len P * sp_n P).
