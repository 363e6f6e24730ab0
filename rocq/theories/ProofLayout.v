From Verif Require Import Base Lib ModelUtils ModelParams ModelHash ModelCommons ModelCore ModelCoreFast ModelXmss SpecRfc SpecParams SpecApi SpecFast SpecLayout
  ProofUtils ProofCore ProofHistory ProofMain ProofSec ProofForge2 ProofBoth.

Lemma width_is {E : Env} mt r : In r (rows mt) -> index_width r = idx_size r.
Proof.
  intros Hr. assert (Hall : forallb (fun r => index_width r =? idx_size r) (rows mt) = true) by (destruct mt; vm_compute; reflexivity).
  rewrite forallb_forall in Hall. apply Nat.eqb_eq. exact (Hall r Hr).
Qed.
Lemma layout {E : Env} (HE : env_ok E) mt r (Hr : In r (rows mt)) core lim size : signer r core lim size -> forall rnd pk0 sk0 cs pk sk, (forall i, (rnd i < 256)%N) ->
  length pk0 = 4 + pk_size r -> length sk0 = 4 + size -> bytes_ok sk0 -> keypair mt core pk0 sk0 (r_oid r) rnd = Ok (0%Z, pk, sk) ->
  (N.of_nat (length cs) < lim)%N -> Forall (call_ok r) cs ->
  let n := r_n r in let i := N.of_nat (length cs) in
  let sk_seed := map rnd (seq 0 n) in let sk_prf := map rnd (seq n n) in let seed := map rnd (seq (2 * n) n) in
  let rt := mt_root (row_sp r) sk_seed seed in
  exists sk' os ext, sign_run mt core sk cs = Ok (sk', os) /\ pk = documented_pk r rt seed /\
    sk' = documented_seed_sk r i sk_seed sk_prf rt seed ++ ext /\
    ((exists ext, sk' = documented_sk r i sk_seed sk_prf seed rt ++ ext) <-> rt = seed).
Proof.
  intros Hs rnd pk0 sk0 cs pk sk Hb Lp Ls Bs Hkp Hl Hok n i sk_seed sk_prf seed rt.
  destruct (signer_key HE mt r Hr core lim size Hs rnd pk0 sk0 Hb Lp Ls Bs) as (a & b & ct & d & ext & Hf & Hkm & Hkp0).
  destruct (signer_run HE mt r Hr core lim size Hs rnd pk0 sk0 cs pk sk Hb Lp Ls Bs Hkp Hl Hok) as (a' & b' & ct' & d' & e & e' & os & Hf' & _ & Epk & Esk & Hrun & _).
  assert (Hab : a' = a /\ b' = b /\ ct' = ct /\ d' = d).
  { rewrite Hkp in Hkp0. assert (Es : sk = secret_key r 0 a b ct d ++ ext) by congruence. rewrite Esk in Es. destruct Hf as [(La & Lb & Lc & Ld) _]. destruct Hf' as [(La' & Lb' & Lc' & Ld') _]. unfold secret_key in Es.
    rewrite <- !app_assoc in Es. do 2 apply app_inv_head in Es. apply app_inj_len in Es; [|congruence]. destruct Es as [Q1 Es]. apply app_inj_len in Es; [|congruence]. destruct Es as [Q2 Es].
    apply app_inj_len in Es; [|congruence]. destruct Es as [Q3 Es]. apply app_inj_len in Es; [|congruence]. destruct Es as [Q4 _]. auto. }
  destruct Hab as (-> & -> & -> & ->). unfold key_material in Hkm.
  assert (Ea : sk_seed = a) by (unfold sk_seed, n; congruence). assert (Eb : sk_prf = b) by (unfold sk_prf, n; congruence). assert (Ed : seed = d) by (unfold seed, n; congruence). assert (Ec : rt = ct) by (unfold rt, sk_seed, seed, n; congruence).
  destruct Hf as [(La & Lb & Lc & Ld) _].
  exists (secret_key r i a b ct d ++ e'), os, e'. split; [exact Hrun|]. split; [rewrite Ec, Ed; exact Epk|].
  split.
  { unfold documented_seed_sk. rewrite (width_is mt r Hr), Ea, Eb, Ec, Ed. reflexivity. }
  rewrite Ec, Ed, Ea, Eb. split.
  - intros [x Hx]. unfold secret_key, documented_sk in Hx. rewrite (width_is mt r Hr) in Hx. rewrite <- !app_assoc in Hx. do 4 apply app_inv_head in Hx. apply app_inj_len in Hx; [apply Hx|congruence].
  - intros Heq. exists e'. unfold secret_key, documented_sk. rewrite (width_is mt r Hr), Heq. reflexivity.
Qed.
