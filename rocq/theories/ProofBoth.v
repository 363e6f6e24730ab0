(** Any two signers, in environments that differ in uninitialised storage only. *)
From Verif Require Import Base Lib ModelUtils ModelParams ModelHash ModelWots ModelCommons ModelCore ModelCoreFast ModelXmss SpecRfc SpecParams SpecApi SpecComp SpecSec SpecForge SpecFast
  ProofUtils ProofParams ProofApi ProofHistory ProofMain ProofUi2 ProofFast3 ProofFast4 ProofFast6 ProofFast7 ProofMt7 ProofForge ProofForge2.

Lemma nth_error_ext_len {A} : forall (l1 l2 : list A), length l1 = length l2 -> (forall k, k < length l1 -> nth_error l1 k = nth_error l2 k) -> l1 = l2.
Proof.
  induction l1 as [|x l1 IH]; intros [|y l2] Hl Hn; try discriminate; [reflexivity|].
  pose proof (Hn 0 ltac:(cbn; lia)) as H0. cbn in H0. injection H0 as ->. f_equal. apply IH; [cbn in Hl; lia|]. intros k Hk. apply (Hn (S k)). cbn. lia.
Qed.
Lemma nth_error_combine' {A B} : forall (l1 : list A) (l2 : list B) k x y, nth_error l1 k = Some x -> nth_error l2 k = Some y -> nth_error (combine l1 l2) k = Some (x, y).
Proof.
  induction l1 as [|a l1 IH]; intros [|b l2] [|k] x y Hx Hy; try discriminate; cbn in *; [congruence|]. now apply IH.
Qed.
Lemma nth_error_seq' : forall n s k, k < n -> nth_error (seq s n) k = Some (s + k).
Proof. induction n as [|n IH]; intros s [|k] Hk; cbn; try lia; [f_equal; lia|]. rewrite IH by lia. f_equal. lia. Qed.

Lemma signer_key {E : Env} (HE : env_ok E) mt r (Hr : In r (rows mt)) core lim size : signer r core lim size -> forall rnd pk0 sk0, (forall i, (rnd i < 256)%N) ->
  length pk0 = 4 + pk_size r -> length sk0 = 4 + size -> bytes_ok sk0 ->
  exists a b ct d ext, fields r a b ct d /\ key_material r rnd = (a, b, ct, d) /\
    keypair mt core pk0 sk0 (r_oid r) rnd = Ok (0%Z, public_key r ct d, secret_key r 0 a b ct d ++ ext).
Proof.
  intros Hs rnd pk0 sk0 Hb Lp Ls Bs. destruct Hs.
  - destruct (keypair_exact HE mt r pk0 sk0 rnd Hr Hb Lp Ls) as (a & b & ct & d & Hf & _ & Hm & Hkp). exists a, b, ct, d, []. rewrite app_nil_r. auto.
  - destruct mt.
    + destruct (fkey_mat HE true r Hr (goodm r) (mkey HE r Hr) pk0 sk0 rnd Hb Lp Ls Bs) as (a & b & ct & d & ext & Hf & _ & Hm & _ & Hkp). exists a, b, ct, d, ext. auto.
    + destruct (fkey_mat HE false r Hr (good1 r) (x_Gkey HE r Hr) pk0 sk0 rnd Hb Lp Ls Bs) as (a & b & ct & d & ext & Hf & _ & Hm & _ & Hkp). exists a, b, ct, d, ext. auto.
Qed.

(** the whole story of one signer *)
Lemma signer_story {E : Env} (HE : env_ok E) mt r (Hr : In r (rows mt)) core lim size : signer r core lim size -> forall rnd pk0 sk0 cs, (forall i, (rnd i < 256)%N) ->
  length pk0 = 4 + pk_size r -> length sk0 = 4 + size -> bytes_ok sk0 -> (N.of_nat (length cs) < lim)%N -> Forall (call_ok r) cs ->
  exists a b ct d sk sk' os, key_material r rnd = (a, b, ct, d) /\ keypair mt core pk0 sk0 (r_oid r) rnd = Ok (0%Z, public_key r ct d, sk) /\
    sign_run mt core sk cs = Ok (sk', os) /\ length os = length cs /\
    forall k x, nth_error cs k = Some x -> exists o, nth_error os k = Some o /\ good_answer r a b ct d k x o.
Proof.
  intros Hs rnd pk0 sk0 cs Hb Lp Ls Bs Hn Hok. destruct (signer_key HE mt r Hr core lim size Hs rnd pk0 sk0 Hb Lp Ls Bs) as (a & b & ct & d & ext & Hf & Hm & Hkp).
  destruct (signer_run HE mt r Hr core lim size Hs rnd pk0 sk0 cs _ _ Hb Lp Ls Bs Hkp Hn Hok) as (a' & b' & ct' & d' & ext1 & ext' & os & Hf' & _ & _ & Esk & Hrun & Hl & Hnth).
  assert (Eq : a' = a /\ b' = b /\ ct' = ct /\ d' = d).
  { destruct (fsk_parts r 0 a b ct d ext Hf) as (_ & _ & _ & Q1 & Q2 & Q3 & Q4). destruct (fsk_parts r 0 a' b' ct' d' ext1 Hf') as (_ & _ & _ & R1 & R2 & R3 & R4).
    rewrite <- Esk in R1, R2, R3, R4. repeat split; congruence. }
  destruct Eq as (-> & -> & -> & ->). exists a, b, ct, d. eexists _, _, os. split; [exact Hm|]. split; [exact Hkp|]. split; [exact Hrun|]. auto.
Qed.

Lemma answers_text {E : Env} (HE : env_ok E) mt r (Hr : In r (rows mt)) a b ct d cs os : length os = length cs ->
  (forall k x, nth_error cs k = Some x -> exists o, nth_error os k = Some o /\ good_answer r a b ct d k x o) ->
  map signed_message os = map (fun q => mt_sign (row_sp r) a b ct d (N.of_nat (fst q)) (snd q) ++ snd q) (combine (seq 0 (length cs)) (map c_m cs)) /\
  Forall (fun o => so_rc o = 0%Z) os.
Proof.
  intros Hl Hn. pose proof (good_gave HE mt r Hr a b ct d cs os Hl Hn) as [_ Hg]. split.
  - apply nth_error_ext_len; [rewrite !map_length, combine_length, seq_length, map_length; lia|].
    intros k Hk. rewrite map_length, Hl in Hk.
    destruct (nth_error cs k) as [x|] eqn:Ex; [|apply nth_error_None in Ex; lia]. destruct (Hn k x Ex) as (o & Ho & _).
    rewrite (map_nth_error signed_message k os Ho). rewrite (Hg k x o Ex Ho). symmetry.
    assert (Hc : nth_error (combine (seq 0 (length cs)) (map c_m cs)) k = Some (k, c_m x)).
    { apply nth_error_combine'; [rewrite nth_error_seq'; [reflexivity|exact Hk]|now apply map_nth_error]. }
    rewrite (map_nth_error _ k _ Hc). reflexivity.
  - apply Forall_forall. intros o Ho. apply In_nth_error in Ho. destruct Ho as [k Ho].
    assert (Hk : k < length cs) by (rewrite <- Hl; apply nth_error_Some; congruence).
    destruct (nth_error cs k) as [x|] eqn:Ex; [|apply nth_error_None in Ex; lia]. destruct (Hn k x Ex) as (o' & Ho' & R & _). congruence.
Qed.

Lemma two_signers s256 s512 j1 j2 mt r :
  let E1 := {| sha256 := s256; sha512 := s512; junk := j1 |} in
  let E2 := {| sha256 := s256; sha512 := s512; junk := j2 |} in
  env_ok E1 -> In r (rows mt) ->
  forall c1 lim1 size1 c2 lim2 size2, signer (E := E1) r c1 lim1 size1 -> signer (E := E2) r c2 lim2 size2 ->
  forall rnd pk1 sk1 pk2 sk2 cs1 cs2, (forall i, (rnd i < 256)%N) ->
  length pk1 = 4 + pk_size r -> length sk1 = 4 + size1 -> bytes_ok sk1 -> length pk2 = 4 + pk_size r -> length sk2 = 4 + size2 -> bytes_ok sk2 ->
  map c_m cs1 = map c_m cs2 -> (N.of_nat (length cs1) < lim1)%N -> (N.of_nat (length cs2) < lim2)%N ->
  Forall (call_ok (E := E1) r) cs1 -> Forall (call_ok (E := E1) r) cs2 ->
  exists pk k1 k2 k1' k2' os1 os2,
    keypair (E := E1) mt c1 pk1 sk1 (r_oid r) rnd = Ok (0%Z, pk, k1) /\ keypair (E := E2) mt c2 pk2 sk2 (r_oid r) rnd = Ok (0%Z, pk, k2) /\
    sign_run (E := E1) mt c1 k1 cs1 = Ok (k1', os1) /\ sign_run (E := E2) mt c2 k2 cs2 = Ok (k2', os2) /\
    length os1 = length cs1 /\ map signed_message os1 = map signed_message os2 /\ Forall (fun o => so_rc o = 0%Z) (os1 ++ os2).
Proof.
  intros E1 E2 HE1 Hr c1 lim1 size1 c2 lim2 size2 S1 S2 rnd pk1 sk1 pk2 sk2 cs1 cs2 Hb P1 K1 B1 P2 K2 B2 Hm N1 N2 O1 O2. assert (HE2 : env_ok E2) by exact HE1.
  destruct (signer_story (E := E1) HE1 mt r Hr c1 lim1 size1 S1 rnd pk1 sk1 cs1 Hb P1 K1 B1 N1 O1) as (a & b & ct & d & k1 & k1' & os1 & M1 & Q1 & R1 & L1 & A1).
  destruct (signer_story (E := E2) HE2 mt r Hr c2 lim2 size2 S2 rnd pk2 sk2 cs2 Hb P2 K2 B2 N2 O2) as (a' & b' & ct' & d' & k2 & k2' & os2 & M2 & Q2 & R2 & L2 & A2).
  change (key_material (E := E2) r rnd) with (key_material (E := E1) r rnd) in M2.
  assert (Eq : a' = a /\ b' = b /\ ct' = ct /\ d' = d) by (rewrite M1 in M2; repeat split; congruence).
  destruct Eq as (-> & -> & -> & ->). eexists _, k1, k2, k1', k2', os1, os2. split; [exact Q1|]. split; [exact Q2|]. split; [exact R1|]. split; [exact R2|]. split; [exact L1|].
  destruct (answers_text (E := E1) HE1 mt r Hr a b ct d cs1 os1 L1 A1) as [T1 F1]. destruct (answers_text (E := E2) HE2 mt r Hr a b ct d cs2 os2 L2 A2) as [T2 F2].
  split; [|apply Forall_app; auto].
  rewrite T1. etransitivity; [|symmetry; exact T2]. rewrite <- Hm. assert (Hc : length cs2 = length cs1) by (rewrite <- (map_length c_m cs1), Hm, map_length; reflexivity). rewrite Hc. reflexivity.
Qed.
Lemma signer_frame {E : Env} (HE : env_ok E) mt r (Hr : In r (rows mt)) core lim size : signer r core lim size -> forall rnd pk0 sk0 cs, (forall i, (rnd i < 256)%N) ->
  length pk0 = 4 + pk_size r -> length sk0 = 4 + size -> bytes_ok sk0 -> (N.of_nat (length cs) < lim)%N -> Forall (call_ok r) cs ->
  exists pk sk sk' os, keypair mt core pk0 sk0 (r_oid r) rnd = Ok (0%Z, pk, sk) /\ sign_run mt core sk cs = Ok (sk', os) /\ length os = length cs /\
    forall k x o, nth_error cs k = Some x -> nth_error os k = Some o ->
      length (so_sm o) = length (c_sm x) /\ skipn (sig_size r + length (c_m x)) (so_sm o) = skipn (sig_size r + length (c_m x)) (c_sm x).
Proof.
  intros Hs rnd pk0 sk0 cs Hb Lp Ls Bs Hn Hok.
  destruct (signer_story HE mt r Hr core lim size Hs rnd pk0 sk0 cs Hb Lp Ls Bs Hn Hok) as (a & b & ct & d & sk & sk' & os & _ & Hkp & Hrun & Hl & Hnth).
  eexists _, sk, sk', os. split; [exact Hkp|]. split; [exact Hrun|]. split; [exact Hl|]. intros k x o Hx Ho. destruct (Hnth k x Hx) as (o' & Ho' & _ & _ & Hsm).
  rewrite Ho in Ho'. injection Ho' as <-. rewrite Forall_forall in Hok. pose proof (Hok x (nth_error_In _ _ Hx)) as Hc. unfold call_ok in Hc.
  pose proof (mt_sign_len HE mt r Hr a b ct d (N.of_nat k) (c_m x)) as Lsg. rewrite Hsm. split; [rewrite !app_length, skipn_length; lia|].
  rewrite app_assoc. apply ProofCore.skipn_app_len. rewrite app_length. lia.
Qed.
Lemma map_repeat' {A B} (f : A -> B) x k : map f (repeat x k) = repeat (f x) k.
Proof. induction k; cbn; [reflexivity|]. now f_equal. Qed.
