(** Property theorems: the layout of the keys. *)
From Verif Require Import Base ModelUtils ModelParams ModelHash ModelCommons ModelCore ModelCoreFast ModelXmss SpecRfc SpecParams SpecApi SpecFast SpecLayout.
From Verif Require ProofLayout ProofMain ProofToy.
From Verif Require Import PropApi.
Local Existing Instance ex_env.

(** C70. The public key has the documented layout.  The secret key of either core, after any
    history of signatures, starts with OID, index, SK_SEED, SK_PRF, root, PUB_SEED: the layout
    that xmss_core.h documents for xmssmt_core_seed_keypair ... *)
Theorem C70_key_layout_partial : forall E : Env, env_ok E -> forall mt r, In r (rows mt) -> forall core lim size, signer r core lim size ->
  forall rnd pk0 sk0 cs pk sk, (forall i, (rnd i < 256)%N) ->
  length pk0 = 4 + pk_size r -> length sk0 = 4 + size -> bytes_ok sk0 -> keypair mt core pk0 sk0 (r_oid r) rnd = Ok (0%Z, pk, sk) ->
  (N.of_nat (length cs) < lim)%N -> Forall (call_ok r) cs ->
  let n := r_n r in let i := N.of_nat (length cs) in
  let sk_seed := map rnd (seq 0 n) in let sk_prf := map rnd (seq n n) in let seed := map rnd (seq (2 * n) n) in
  let rt := mt_root (row_sp r) sk_seed seed in
  exists sk' os ext, sign_run mt core sk cs = Ok (sk', os) /\ pk = documented_pk r rt seed /\
    sk' = documented_seed_sk r i sk_seed sk_prf rt seed ++ ext.
Proof.
  intros E HE mt r Hr core lim size Hs rnd pk0 sk0 cs pk sk Hb Lp Ls Bs Hkp Hl Hok.
  destruct (ProofLayout.layout HE mt r Hr core lim size Hs rnd pk0 sk0 cs pk sk Hb Lp Ls Bs Hkp Hl Hok) as (sk' & os & ext & Q1 & Q2 & Q3 & _). exists sk', os, ext. split; [exact Q1|]. split; [exact Q2|exact Q3].
Qed.
Print Assumptions C70_key_layout_partial.
(** ... and not the one that xmss.h and xmss_core.h document for the functions in use
    (PUB_SEED before the root), unless root and PUB_SEED happen to be the same string. *)
Theorem C70_refuted_documented_secret_key : forall E : Env, env_ok E -> forall mt r, In r (rows mt) -> forall core lim size, signer r core lim size ->
  forall rnd pk0 sk0 cs pk sk sk' os, (forall i, (rnd i < 256)%N) ->
  length pk0 = 4 + pk_size r -> length sk0 = 4 + size -> bytes_ok sk0 -> keypair mt core pk0 sk0 (r_oid r) rnd = Ok (0%Z, pk, sk) ->
  (N.of_nat (length cs) < lim)%N -> Forall (call_ok r) cs -> sign_run mt core sk cs = Ok (sk', os) ->
  let n := r_n r in let i := N.of_nat (length cs) in
  let sk_seed := map rnd (seq 0 n) in let sk_prf := map rnd (seq n n) in let seed := map rnd (seq (2 * n) n) in
  let rt := mt_root (row_sp r) sk_seed seed in
  (exists ext, sk' = documented_sk r i sk_seed sk_prf seed rt ++ ext) <-> rt = seed.
Proof.
  intros E HE mt r Hr core lim size Hs rnd pk0 sk0 cs pk sk sk' os Hb Lp Ls Bs Hkp Hl Hok Hrun.
  destruct (ProofLayout.layout HE mt r Hr core lim size Hs rnd pk0 sk0 cs pk sk Hb Lp Ls Bs Hkp Hl Hok) as (sk2 & os2 & ext & Q1 & _ & _ & Q4).
  rewrite Hrun in Q1. injection Q1 as <- <-. exact Q4.
Qed.
Print Assumptions C70_refuted_documented_secret_key.
(** In the example the two strings differ. *)
Example C70_applies : signer ex_row ref_core (2 ^ N.of_nat (r_h ex_row))%N (sk_size ex_row) /\ (N.of_nat (length (repeat ex_call 5)) < 2 ^ N.of_nat (r_h ex_row))%N /\ Forall (call_ok ex_row) (repeat ex_call 5) /\
  (exists pk sk, keypair false ref_core (repeat 0%N 68) (repeat 0%N 136) (r_oid ex_row) ex_rnd = Ok (0%Z, pk, sk)) /\
  let sk_seed := map ex_rnd (seq 0 32) in let seed := map ex_rnd (seq 64 32) in mt_root (row_sp ex_row) sk_seed seed <> seed.
Proof.
  split; [constructor|]. split; [reflexivity|]. split; [apply ex_calls_ok|]. split; [exact C08_applies|]. cbv zeta.
  assert (La : length (map ex_rnd (seq 0 32)) = 32) by reflexivity. assert (Ba : bytes_ok (map ex_rnd (seq 0 32))) by (apply Forall_map, Forall_forall; intros; apply ex_rnd_bytes).
  unfold mt_root, root. rewrite (ProofToy.toy_node (fun _ => 0%N) ex_row eq_refl eq_refl _ (map ex_rnd (seq 64 32)) La Ba). intros He. apply (f_equal (fun l => nth 0 l 0%N)) in He. vm_compute in He. discriminate.
Qed.
