(** The programs of "make test", as the Makefile builds them. *)
From Coq Require Import String.
From Verif Require Import Base Lib ModelUtils ModelParams ModelHash ModelWots ModelCommons ModelCore ModelCoreFast ModelXmss ModelUi ModelTests
  SpecRfc SpecParams SpecApi SpecComp SpecSec SpecForge SpecFast SpecLast SpecTests
  ProofUtils ProofHash ProofWots ProofParams ProofApi ProofComp ProofComp2 ProofForge2 ProofMt7 ProofUi4 ProofTests ProofWotsAny.

Lemma wots_any_custom (E : Env) c p : env_ok E -> custom_ok c -> configured c p ->
  forall sk_seed pub_seed M x y z, List.length sk_seed = cu_n c -> List.length pub_seed = cu_n c -> List.length M = cu_n c -> bytes_ok M ->
  same_key x y -> same_key x z ->
  exists pk sig x' y' z', wots_sign p M sk_seed pub_seed x = Ok (sig, x') /\ wots_pkgen p sk_seed pub_seed y = Ok (pk, y') /\ wots_pk_from_sig p sig M pub_seed z = Ok (pk, z').
Proof.
  intros HE Hc Hp sks seed M x y z H1 H2 H3 H4 Hy Hz. destruct (conf_ok c p HE Hc Hp) as (Hok & HH & _ & Hn). rewrite <- Hn in H1, H2, H3.
  apply (wots_any3 p _ Hok HH seed (a0 x) (a1 x) (a2 x) (a3 x) (a4 x) H2 sks M x y z); try assumption.
  - repeat split.
  - destruct Hy as (F0 & F1 & F2 & F3 & F4). repeat split; symmetry; assumption.
  - destruct Hz as (F0 & F1 & F2 & F3 & F4). repeat split; symmetry; assumption.
Qed.

Definition row_x : row := mkRow false 1 "SHA2" SHA2 32 10 1.
Definition row_xmt : row := mkRow true 1 "SHA2" SHA2 32 20 2.
Lemma row_x_in : In row_x (rows false).
Proof. left. reflexivity. Qed.
Lemma row_xmt_in : In row_xmt (rows true).
Proof. left. reflexivity. Qed.
Lemma row_x_name : row_name row_x = "XMSS-SHA2_10_256"%string. Proof. vm_compute. reflexivity. Qed.
Lemma row_xmt_name : row_name row_xmt = "XMSSMT-SHA2_20/2_256"%string. Proof. vm_compute. reflexivity. Qed.
Lemma name_row mt r1 r2 : In r1 (rows mt) -> In r2 (rows mt) -> row_name r1 = row_name r2 -> r1 = r2.
Proof.
  intros H1 H2 He.
  assert (Ho : r_oid r1 = r_oid r2).
  { assert (A1 : ProofParams.str_to_oid mt (row_name r1) = Some (r_oid r1)) by (apply str_to_oid_spec; eauto).
    assert (A2 : ProofParams.str_to_oid mt (row_name r2) = Some (r_oid r2)) by (apply str_to_oid_spec; eauto). rewrite He in A1. congruence. }
  assert (Hd : NoDup (map r_oid (rows mt))) by (destruct mt; vm_compute; repeat constructor; cbn; intuition discriminate).
  apply In_nth_error in H1. apply In_nth_error in H2. destruct H1 as [i H1], H2 as [j H2].
  rewrite NoDup_nth_error in Hd. assert (i = j); [|congruence]. apply Hd.
  - rewrite map_length. apply nth_error_Some. congruence.
  - rewrite !nth_error_map, H1, H2. cbn. congruence.
Qed.

Section Make.
Context (E : Env) (HE : env_ok E) (Hu : forall k, bytes_ok (uninit k)) (rnd : nat -> N) (Hb : forall i, (rnd i < 256)%N).
Lemma make_test :
  let x := "XMSS-SHA2_10_256"%string in let xmt := "XMSSMT-SHA2_20/2_256"%string in
  let verdict mt name nsig rc := forall r, In r (rows mt) -> row_name r = name ->
    rc = 0%Z \/ rc = (-1)%Z /\ let n := r_n r in let sk_seed := stream rnd 32 n in let seed := stream rnd (32 + 2 * n) n in
       flip_breaks (row_sp r) sk_seed (stream rnd (32 + n) n) (mt_root (row_sp r) sk_seed seed) seed (stream rnd 0 32) nsig in
  test_wots ref_core 1 rnd = Ok 0%Z /\
  test_oid ref_core = Ok 0%Z /\
  test_speed true fast_core xmt 16 rnd = Ok 0%Z /\
  test_determinism false ref_core x rnd = Ok 0%Z /\
  (exists rc, test_xmss false ref_core x 16 rnd = Ok rc /\ verdict false x 16 rc) /\
  (exists rc, test_xmss true ref_core xmt 16 rnd = Ok rc /\ verdict true xmt 16 rc) /\
  (exists rc, test_xmss true fast_core xmt 1024 rnd = Ok rc /\ verdict true xmt 1024 rc) /\
  (exists log, test_max false fast_core x 1024 rnd = Ok (0%Z, log)) /\
  (exists log, test_max true fast_core xmt (N.to_nat (2 ^ 20)) rnd = Ok (0%Z, log)).
Proof.
  cbv zeta. rewrite <- row_x_name, <- row_xmt_name.
  assert (Hv : forall mt r core lim size nsig, In r (rows mt) -> signer r core lim size -> (N.of_nat nsig < lim)%N ->
    exists rc, test_xmss mt core (row_name r) nsig rnd = Ok rc /\ forall r', In r' (rows mt) -> row_name r' = row_name r ->
      rc = 0%Z \/ rc = (-1)%Z /\ flip_breaks (row_sp r') (stream rnd 32 (r_n r')) (stream rnd (32 + r_n r') (r_n r'))
         (mt_root (row_sp r') (stream rnd 32 (r_n r')) (stream rnd (32 + 2 * r_n r') (r_n r'))) (stream rnd (32 + 2 * r_n r') (r_n r')) (stream rnd 0 32) nsig).
  { intros mt r core lim size nsig Hr Hs Hn. destruct (test_passes HE mt r Hr core lim size Hs rnd nsig Hb (Hu _) Hn) as (rc & Hrc & Hd).
    exists rc. split; [exact Hrc|]. intros r' Hr' He. rewrite (name_row mt r' r Hr' Hr He). exact Hd. }
  split; [exact (wots_passes HE row_x ref_core rnd row_x_in (or_introl eq_refl) Hb)|].
  split; [apply oid_passes; left; reflexivity|].
  split; [apply (speed_passes HE true row_xmt row_xmt_in fast_core _ _ (signer_fast row_xmt) rnd 16 Hb (Hu _)); vm_compute; reflexivity|].
  split; [apply (determinism_passes HE false row_x row_x_in ref_core _ _ (signer_ref row_x) rnd Hb (Hu _)); vm_compute; reflexivity|].
  split; [apply (Hv false row_x ref_core _ _ 16 row_x_in (signer_ref row_x)); vm_compute; reflexivity|].
  split; [apply (Hv true row_xmt ref_core _ _ 16 row_xmt_in (signer_ref row_xmt)); vm_compute; reflexivity|].
  split; [apply (Hv true row_xmt fast_core _ _ 1024 row_xmt_in (signer_fast row_xmt)); vm_compute; reflexivity|].
  split.
  - eexists. apply (max_passes HE false row_x row_x_in fast_core _ _ (signer_fast row_x) rnd 1024 Hb (Hu _)); [vm_compute; reflexivity|vm_compute; reflexivity|apply Nat.ltb_lt; vm_compute; reflexivity].
  - eexists. apply (max_passes HE true row_xmt row_xmt_in fast_core _ _ (signer_fast row_xmt) rnd (N.to_nat (2 ^ 20)) Hb (Hu _)); [vm_compute; reflexivity|apply N2Nat.id|apply Nat.ltb_lt; vm_compute; reflexivity].
Qed.
Lemma xmss_fast_fails :
  let sk_seed := stream rnd 32 32 in let sk_prf := stream rnd 64 32 in let seed := stream rnd 96 32 in let m := stream rnd 0 32 in
  sk_prf <> repeat 0%N 32 ->
  exists r rc, In r (rows false) /\ row_name r = "XMSS-SHA2_10_256"%string /\ let rt := mt_root (row_sp r) sk_seed seed in
    test_xmss false fast_core "XMSS-SHA2_10_256" 1024 rnd = Ok rc /\
    (rc = (-1)%Z \/ rc = 0%Z /\ exists sig, last_sig r m fast_core sig /\
       last_broken r sk_seed sk_prf rt seed m sig (map (fun k => (mt_sign (row_sp r) sk_seed sk_prf rt seed (N.of_nat k) m, m)) (seq 0 1023))).
Proof.
  cbv zeta. intros Hz.
  destruct (test_fails HE false row_x row_x_in fast_core _ _ (signer_fast row_x) rnd 1024 Hb (Hu _)) as (rc & Hrc & Hd); [vm_compute; reflexivity|vm_compute; reflexivity|exact Hz|].
  exists row_x, rc. split; [exact row_x_in|]. split; [exact row_x_name|]. rewrite row_x_name in Hrc. split; [exact Hrc|exact Hd].
Qed.
End Make.
