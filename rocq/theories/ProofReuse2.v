From Verif Require Import Base Lib ModelUtils ModelParams ModelHash ModelCommons ModelCore ModelCoreFast ModelXmss SpecRfc SpecParams SpecApi SpecFast SpecForge SpecTools SpecReuse ProofUtils ProofCore ProofParams ProofApi ProofHistory ProofMain ProofUi2 ProofForge2 ProofBoth ProofReuse.

Lemma reuse_forges {E : Env} (HE : env_ok E) mt r (Hr : In r (rows mt)) core lim size : signer r core lim size -> forall rnd pk0 sk0 pk sk cs1 cs2 sk1 sk2 os1 os2, (forall i, (rnd i < 256)%N) ->
  length pk0 = 4 + pk_size r -> length sk0 = 4 + size -> bytes_ok sk0 -> keypair mt core pk0 sk0 (r_oid r) rnd = Ok (0%Z, pk, sk) ->
  (N.of_nat (length cs1) < lim)%N -> (N.of_nat (length cs2) < lim)%N -> Forall (call_ok r) cs1 -> Forall (call_ok r) cs2 ->
  sign_run mt core sk cs1 = Ok (sk1, os1) -> sign_run mt core sk cs2 = Ok (sk2, os2) ->
  forall j o1 o2, nth_error os1 j = Some o1 -> nth_error os2 j = Some o2 ->
  let sm1 := signed_message o1 in let sm2 := signed_message o2 in
  sm_index r sm1 = N.of_nat j /\ sm_index r sm2 = N.of_nat j /\
  forall c R m mbuf mlen, a_core c -> length R = r_n r -> can_forge r pk sm1 sm2 R m -> length (forge r pk sm1 sm2 R m) <= length mbuf ->
    exists oo, sign_open mt c mbuf mlen (forge r pk sm1 sm2 R m) pk = Ok oo /\ oo_rc oo = 0%Z /\ oo_mlen oo = length m /\ firstn (length m) (oo_m oo) = m.
Proof.
  intros Hs rnd pk0 sk0 pk sk cs1 cs2 sk1 sk2 os1 os2 Hb Lp Ls Bs Hkp Hl1 Hl2 Hok1 Hok2 Hrun1 Hrun2 j o1 o2 Ho1 Ho2 sm1 sm2.
  destruct (signer_key HE mt r Hr core lim size Hs rnd pk0 sk0 Hb Lp Ls Bs) as (a & b & ct & d & ext & Hf & Hkm & Hkp0).
  assert (Hct : ct = mt_root (row_sp r) a d) by (unfold key_material in Hkm; congruence).
  assert (Epk : pk = public_key r ct d) by congruence.
  pose proof (limit_le mt r Hr core lim size Hs) as Hlim.
  assert (Hone : forall cs sk' os o, (N.of_nat (length cs) < lim)%N -> Forall (call_ok r) cs -> sign_run mt core sk cs = Ok (sk', os) -> nth_error os j = Some o ->
     (N.of_nat j < 2 ^ N.of_nat (r_h r))%N /\ exists m, signed_message o = mt_sign (row_sp r) a b ct d (N.of_nat j) m ++ m).
  { intros cs sk' os o Hl Hok Hrun Ho.
    destruct (signer_story HE mt r Hr core lim size Hs rnd pk0 sk0 cs Hb Lp Ls Bs Hl Hok) as (a' & b' & ct' & d' & skk & skk' & os' & Hkm' & Hkp' & Hrun' & Hlen & Hall).
    assert (Eq : a' = a /\ b' = b /\ ct' = ct /\ d' = d) by (repeat split; congruence). destruct Eq as (-> & -> & -> & ->).
    assert (skk = sk) by congruence. subst skk. assert (os' = os) by congruence. subst os'.
    assert (Hj : j < length cs) by (rewrite <- Hlen; apply nth_error_Some; congruence). split; [lia|].
    destruct (nth_error cs j) as [x|] eqn:Hx; [|apply nth_error_None in Hx; lia]. destruct (Hall j x Hx) as (o' & Ho' & _ & Hsl & Hsm). assert (o' = o) by congruence. subst o'.
    exists (c_m x). unfold signed_message. rewrite Hsl, Hsm, app_assoc. apply firstn_app_len. now rewrite app_length, (mt_sign_len HE mt r Hr). }
  destruct (Hone cs1 sk1 os1 o1 Hl1 Hok1 Hrun1 Ho1) as [Hj [m1 E1]]. destruct (Hone cs2 sk2 os2 o2 Hl2 Hok2 Hrun2 Ho2) as [_ [m2 E2]]. fold sm1 in E1. fold sm2 in E2.
  rewrite E1, E2. split; [apply (sm_parts HE mt r Hr a b ct d Hf _ _ Hj)|]. split; [apply (sm_parts HE mt r Hr a b ct d Hf _ _ Hj)|].
  intros c R m mbuf mlen Hc LR Hcf Lm. rewrite Epk in *. exact (forge_opens HE mt r Hr a b ct d Hf Hct c (N.of_nat j) m1 m2 R m mbuf mlen Hc Hj LR Hcf Lm).
Qed.
