(** Properties of either signer. *)
From Verif Require Import Base Lib ModelUtils ModelParams ModelHash ModelWots ModelCommons ModelCore ModelCoreFast ModelXmss SpecRfc SpecParams SpecApi SpecComp SpecFast
  ProofParams ProofApi ProofHistory ProofMain ProofFast3 ProofForge2 ProofBoth PropApi PropFast PropMt.
Local Existing Instance ex_env.

(** C52. Any two signers, in environments that differ in the contents of uninitialised
    storage, given different buffers, but drawing the same randomness: the same public key,
    and on the same messages the same signed messages. *)
Theorem C52_any_two_signers_agree : forall s256 s512 j1 j2 mt r,
  let E1 := {| sha256 := s256; sha512 := s512; junk := j1 |} in
  let E2 := {| sha256 := s256; sha512 := s512; junk := j2 |} in
  env_ok E1 -> In r (rows mt) ->
  forall c1 lim1 size1 c2 lim2 size2, signer (E := E1) r c1 lim1 size1 -> signer (E := E2) r c2 lim2 size2 ->
  forall rnd pk1 sk1 pk2 sk2 cs1 cs2, (forall i, (rnd i < 256)%N) ->
  length pk1 = 4 + pk_size r -> length sk1 = 4 + size1 -> bytes_ok sk1 -> length pk2 = 4 + pk_size r -> length sk2 = 4 + size2 -> bytes_ok sk2 ->
  map c_m cs1 = map c_m cs2 -> (N.of_nat (length cs1) < lim1)%N -> (N.of_nat (length cs2) < lim2)%N ->
  Forall (call_ok (E := E1) r) cs1 -> Forall (call_ok (E := E1) r) cs2 ->
  exists pk k1 k2 k1' k2' os1 os2,
    keypair (E := E1) mt c1 pk1 sk1 (r_oid r) rnd = Ok (0%Z, pk, k1) /\ keypair (E := E2) mt c2 pk2 sk2 (r_oid r) rnd = Ok (0%Z, pk, k2) /\
    sign_run (E := E1) mt c1 k1 cs1 = Ok (k1', os1) /\ sign_run (E := E2) mt c2 k2 cs2 = Ok (k2', os2) /\
    length os1 = length cs1 /\ map signed_message os1 = map signed_message os2 /\ Forall (fun o => so_rc o = 0%Z) (os1 ++ os2).
Proof. exact two_signers. Qed.
Print Assumptions C52_any_two_signers_agree.
Example C52_applies : env_ok ex_env /\ signer ex_mt4 fast_core (fast_limit ex_mt4) (fast_size ex_mt4) /\ signer ex_mt4 ref_core (2 ^ N.of_nat (r_h ex_mt4))%N (sk_size ex_mt4) /\
  (N.of_nat (length (repeat ex_mt_call 40000)) < fast_limit ex_mt4)%N /\ Forall (call_ok ex_mt4) (repeat ex_mt_call 40000) /\
  map c_m (repeat ex_mt_call 40000) = map c_m (repeat (mkCall [1; 2; 3]%N (repeat 77%N 9999) 5) 40000).
Proof.
  split; [exact ex_env_ok|]. split; [constructor|]. split; [constructor|]. split; [rewrite repeat_length; vm_compute; reflexivity|]. split; [apply ex_mt_calls_ok|].
  rewrite !map_repeat'. reflexivity.
Qed.

(** C22 for either signer on keys it has made: every call of a history returns, and writes
    only the first sig_bytes + mlen bytes of the output buffer. *)
Theorem C22_reachable_keys_memory_safe : forall E : Env, env_ok E -> forall mt r, In r (rows mt) ->
  forall core lim size, signer r core lim size -> forall rnd pk0 sk0 cs, (forall i, (rnd i < 256)%N) ->
  length pk0 = 4 + pk_size r -> length sk0 = 4 + size -> bytes_ok sk0 -> (N.of_nat (length cs) < lim)%N -> Forall (call_ok r) cs ->
  exists pk sk sk' os, keypair mt core pk0 sk0 (r_oid r) rnd = Ok (0%Z, pk, sk) /\ sign_run mt core sk cs = Ok (sk', os) /\ length os = length cs /\
    forall k x o, nth_error cs k = Some x -> nth_error os k = Some o ->
      length (so_sm o) = length (c_sm x) /\ skipn (sig_size r + length (c_m x)) (so_sm o) = skipn (sig_size r + length (c_m x)) (c_sm x).
Proof. exact (@signer_frame). Qed.
Print Assumptions C22_reachable_keys_memory_safe.
(* non-vacuity: C52_applies *)

(** ... but not on arbitrary keys: one wrong byte in the stored traversal state, and the
    fast core reads outside its arrays. *)
Definition bad_key (x : N) : bytes := ex_sk 5 ++ repeat 0%N 1203 ++ [x] ++ repeat 0%N 37.
Theorem C22_refuted_fast : exists E : Env, env_ok E /\ exists sk sk' sm m,
  key_of ex_row (fast_size ex_row) sk /\ key_of ex_row (fast_size ex_row) sk' /\ sig_size ex_row + length m <= length sm /\
  (exists o, sign false fast_core sk sm 0 m = Ok o /\ so_rc o = 0%Z) /\
  sign false fast_core sk' sm 0 m = UB /\ (exists a b, sk = a ++ [0%N] ++ b /\ sk' = a ++ [1%N] ++ b).
Proof.
  exists ex_env. split; [exact ex_env_ok|]. exists (bad_key 0), (bad_key 1), (repeat 0%N 2503), [1; 2; 3]%N.
  assert (Hk : forall x, (x < 256)%N -> key_of ex_row (fast_size ex_row) (bad_key x)).
  { intros x Hx. destruct (proj1 (ex_sk_key 5 (or_introl eq_refl))) as (K1 & K2 & K3). split; [|split].
    - unfold bad_key. rewrite !app_length, !repeat_length, K1. vm_compute. reflexivity.
    - unfold bad_key. rewrite <- K2, firstn_app. replace (4 - length (ex_sk 5)) with 0 by (rewrite K1; lia). cbn [firstn]. apply app_nil_r.
    - unfold bad_key. rewrite !bytes_ok_app. split; [exact K3|]. split; [apply ex_fast_bytes|]. split; [|apply ex_fast_bytes]. constructor; [exact Hx|constructor]. }
  split; [apply Hk; reflexivity|]. split; [apply Hk; reflexivity|]. split; [apply Nat.leb_le; vm_compute; reflexivity|].
  split; [|split; [vm_compute; reflexivity|exists (ex_sk 5 ++ repeat 0%N 1203), (repeat 0%N 37); unfold bad_key; rewrite <- !app_assoc; auto]].
  assert (Ho : match sign false fast_core (bad_key 0) (repeat 0%N 2503) 0 [1; 2; 3]%N with Ok o => Z.eqb (so_rc o) 0 | _ => false end = true) by (vm_compute; reflexivity).
  destruct (sign false fast_core (bad_key 0) (repeat 0%N 2503) 0 [1; 2; 3]%N) as [o| |]; try discriminate. exists o. split; [reflexivity|]. now apply Z.eqb_eq.
Qed.
Print Assumptions C22_refuted_fast.
