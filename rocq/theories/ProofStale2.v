(** A call of the fast core one index ahead of its traversal state, for the named parameter sets. *)
From Verif Require Import Base ModelUtils ModelParams ModelCommons ModelCore ModelCoreFast ModelXmss.
From Verif Require Import SpecRfc SpecFips202 SpecParams SpecApi SpecComp SpecFast Lib ProofUtils ProofHash ProofCore ProofTree ProofParams ProofApi ProofHistory ProofMain.
From Verif Require Import ProofSched ProofBds1 ProofBds2 ProofBds3 ProofBds4 ProofFast1 ProofFast2 ProofFast3 ProofMt5 ProofMt6 ProofMt7 ProofStale.

Section Single.
Context {E : Env}.
Hypothesis HE : env_ok E.
Variable r : row.
Hypothesis Hr : In r (rows false).
Notation p := (row_params r (sk_fast r)).
Notation P := (row_sp r).
Notation n := (r_n r).
Notation ib := (idx_size r).
Lemma xbehind sks prfk rt seed : length sks = n -> length prfk = n -> length rt = n -> length seed = n ->
  forall i ext sm smlen m, good1 r sks seed i ext -> (i + 2 < 2 ^ N.of_nat (r_h r))%N -> N.odd i = true -> ((i + 1) mod 2 ^ N.of_nat (sp_th P) <> 0)%N -> sig_size r + length m <= length sm ->
  exists o, fsg false p (sk_layout (toByte (i + 1) ib) sks prfk rt seed ext) sm smlen m = Ok o.
Proof.
  intros L1 L2 L3 L4 i ext sm smlen m (s & Hs & Hn & ->) Hi Hodd _ Hsm. pose proof (xr_facts r Hr) as [Hd Hth].
  assert (H3 : 3 <= tree_height p) by (rewrite (fp_th r); clear - Hth; lia).
  pose proof (stale_single_returns p (row_hash r) (fp_ok false r Hr) (fp_hash HE false r Hr) (fp_kH false r Hr) H3 (xr_HU r Hr)) as Hf.
  rewrite row_dd, row_n, fp_sig, (fp_ib r) in Hf. specialize (Hf sks seed L1 L4 prfk rt L2 L3 (N.to_nat i) s sm m smlen [] Hd).
  rewrite app_nil_r in Hf. replace (N.of_nat (N.to_nat i + 1)) with (i + 1)%N in Hf by lia. cbn [fsg]. apply Hf; try assumption.
  - rewrite (fp_th r). unfold sp_th. cbn [sp_h sp_d row_sp]. rewrite Hd, Nat.div_1_r. rewrite pow2_of_nat in Hi. clear - Hi. lia.
  - apply Nat.odd_spec. apply N.odd_spec in Hodd as [y Hy]. exists (N.to_nat y). clear - Hy. lia.
Qed.
End Single.

Section Multi.
Context {E : Env}.
Hypothesis HE : env_ok E.
Variable r : row.
Hypothesis Hr : In r (rows true).
Notation p := (row_params r (sk_fast r)).
Notation P := (row_sp r).
Notation n := (r_n r).
Notation ib := (idx_size r).
Lemma mbehind sks prfk rt seed : length sks = n -> length prfk = n -> length rt = n -> length seed = n ->
  forall i ext sm smlen m, goodm r sks seed i ext -> (i + 2 < 2 ^ N.of_nat (r_h r))%N -> N.odd i = true -> ((i + 1) mod 2 ^ N.of_nat (sp_th P) <> 0)%N -> sig_size r + length m <= length sm ->
  exists o, fsg true p (sk_layout (toByte (i + 1) ib) sks prfk rt seed ext) sm smlen m = Ok o.
Proof.
  intros L1 L2 L3 L4 i ext sm smlen m (ss & ws & Hs & _ & ->) Hi Hodd Hend Hsm.
  pose proof (stale_mt_returns p (row_hash r) (fp_ok true r Hr) (fp_hash HE true r Hr) (fp_kH true r Hr) (mr_H3 r Hr) (mr_HU r Hr)) as Hf.
  rewrite row_n, fp_sig, (fp_ib r), (fp_h r), (fp_th r) in Hf.
  specialize (Hf sks seed L1 L4 prfk rt L2 L3 i ss ws sm m smlen [] Hi Hodd Hend Hs Hsm). rewrite !app_nil_r in Hf. exact Hf.
Qed.
End Multi.
