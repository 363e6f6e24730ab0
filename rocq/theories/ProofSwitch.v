(** Using a key of the fast implementation with the reference implementation, and back. *)
From Coq Require Import String.
From Verif Require Import Base Lib ModelUtils ModelParams ModelCore ModelCoreFast ModelCommons ModelXmss ModelUi
  SpecRfc SpecParams SpecApi SpecComp SpecFast SpecUi SpecSec SpecTools SpecSwitch ProofUtils ProofHash ProofWots ProofTree ProofCore ProofParams ProofApi ProofHistory ProofMain ProofMain2 ProofUi ProofUi2
  ProofFast1 ProofFast3 ProofFast5 ProofFast6 ProofFast7 ProofForge2 ProofAny ProofBoth ProofUi3 ProofUi4 ProofUi5 ProofUi6 ProofUi7 ProofPath ProofCommons ProofLast.

Lemma nth_error_same {A} : forall l l' : list A, (forall k, nth_error l k = nth_error l' k) -> l = l'.
Proof.
  induction l as [|x l IH]; intros [|y l'] Hk; [reflexivity|specialize (Hk 0); discriminate|specialize (Hk 0); discriminate|].
  f_equal; [specialize (Hk 0); cbn [nth_error] in Hk; congruence|]. apply IH. intros k. exact (Hk (S k)).
Qed.

Section Switch.
Context {E : Env}.
Hypothesis HE : env_ok E.
Variables (mt : bool) (r : row).
Hypothesis Hr : In r (rows mt).
Notation P := (row_sp r).
Notation ib := (idx_size r).
Notation n := (r_n r).
Notation top := (2 ^ N.of_nat (r_h r))%N.

(** the reference core on a longer buffer *)
Lemma step_ext i a b c d ext sm smlen m : fields r a b c d -> (i + 1 < top)%N -> sig_size r + List.length m <= List.length sm ->
  sign mt ref_core (secret_key r i a b c d ++ ext) sm smlen m =
  Ok (mkSign 0 (secret_key r (i + 1) a b c d ++ ext) (mt_sign P a b c d i m ++ m ++ skipn (sig_size r + List.length m) sm) (sig_size r + List.length m)).
Proof.
  intros [[La [Lb [Lc Ld]]] _] Hi Hm. assert (Es : forall j, secret_key r j a b c d ++ ext = toByte (r_oid r) 4 ++ sk_layout (toByte j ib) a b c d ext).
  { intros j. unfold secret_key, sk_layout. now rewrite <- !app_assoc. }
  rewrite !Es, (sign_eq mt r Hr).
  pose proof (sign_spec (row_params r (sk_ref r)) (row_hash r) (p_ok mt r Hr) (p_hash HE mt r Hr) a b c d ext) as H1.
  rewrite (row_n r), (p_ib r), (p_sig r), (p_h r), (sp_of_row r) in H1. rewrite H1 by assumption.
  rewrite bind_ok. cbn [so_rc so_sk so_sm so_smlen]. reflexivity.
Qed.

Definition told (a b c d : bytes) (i : N) (cs : list call) (os : list sign_out) : Prop :=
  List.length os = List.length cs /\
  forall k x, nth_error cs k = Some x -> exists o, nth_error os k = Some o /\ so_rc o = 0%Z /\ so_smlen o = sig_size r + List.length (c_m x) /\
      so_sm o = mt_sign P a b c d (i + N.of_nat k) (c_m x) ++ c_m x ++ skipn (sig_size r + List.length (c_m x)) (c_sm x).
Lemma told_answers a b c d cs : forall i os1 os2, told a b c d i cs os1 -> told a b c d i cs os2 -> map sign_answer os1 = map sign_answer os2.
Proof.
  intros i os1 os2 [L1 T1] [L2 T2]. apply nth_error_same. intros k. rewrite !nth_error_map.
  destruct (nth_error cs k) as [x|] eqn:Hx.
  - destruct (T1 k x Hx) as (o1 & O1 & A1 & A2 & A3). destruct (T2 k x Hx) as (o2 & O2 & B1 & B2 & B3).
    rewrite O1, O2. cbn [option_map]. unfold sign_answer. rewrite A1, A2, A3, B1, B2, B3. reflexivity.
  - apply nth_error_None in Hx. assert (N1 : nth_error os1 k = None) by (apply nth_error_None; lia). assert (N2 : nth_error os2 k = None) by (apply nth_error_None; lia).
    rewrite N1, N2. reflexivity.
Qed.

Lemma run_ext a b c d ext : fields r a b c d -> forall cs i, (i + N.of_nat (List.length cs) < top)%N -> Forall (call_ok r) cs ->
  exists os, sign_run mt ref_core (secret_key r i a b c d ++ ext) cs = Ok (secret_key r (i + N.of_nat (List.length cs)) a b c d ++ ext, os) /\ told a b c d i cs os.
Proof.
  intros Hf. induction cs as [|x cs IH]; intros i Hn Hok.
  - exists []. rewrite N.add_0_r. split; [reflexivity|]. split; [reflexivity|]. intros [|k] x Hx; discriminate.
  - inversion Hok as [|? ? Hx Hok']; subst. cbn [List.length] in Hn. rewrite Nat2N.inj_succ in Hn.
    pose proof (step_ext i a b c d ext (c_sm x) (c_smlen x) (c_m x) Hf ltac:(lia) Hx) as H1.
    destruct (IH (i + 1)%N ltac:(lia) Hok') as (os & Hrun & Hl & Hnth).
    eexists (_ :: os). split.
    { cbn [sign_run]. rewrite H1, bind_ok. cbn [so_sk]. rewrite Hrun, bind_ok. replace (i + 1 + N.of_nat (List.length cs))%N with (i + N.of_nat (List.length (x :: cs)))%N by (cbn [List.length]; lia). reflexivity. }
    split; [cbn [List.length]; now rewrite Hl|]. intros [|k] y Hy; cbn [nth_error] in *.
    + assert (x = y) by congruence. subst y. eexists. split; [reflexivity|]. rewrite N.add_0_r. cbn [so_rc so_smlen so_sm]. split; [reflexivity|]. split; reflexivity.
    + destruct (Hnth k y Hy) as (o & Ho & R1 & R2 & R3). exists o. split; [exact Ho|]. split; [exact R1|]. split; [exact R2|].
      replace (i + N.of_nat (S k))%N with (i + 1 + N.of_nat k)%N by lia. exact R3.
Qed.

(** C63 *)
Lemma switch rnd pkF skF pkR skR cs1 cs2 : (forall i, (rnd i < 256)%N) ->
  List.length pkF = 4 + pk_size r -> List.length skF = 4 + fast_size r -> bytes_ok skF ->
  List.length pkR = 4 + pk_size r -> List.length skR = 4 + sk_size r -> bytes_ok skR ->
  (N.of_nat (List.length cs1) < fast_limit r)%N -> (N.of_nat (List.length cs1) + N.of_nat (List.length cs2) < top)%N -> Forall (call_ok r) cs1 -> Forall (call_ok r) cs2 ->
  exists pk kF kR kF1 kR1 kF2 kR2 osF osR osF2 osR2,
    keypair mt fast_core pkF skF (r_oid r) rnd = Ok (0%Z, pk, kF) /\ keypair mt ref_core pkR skR (r_oid r) rnd = Ok (0%Z, pk, kR) /\ firstn (4 + sk_size r) kF = kR /\
    sign_run mt fast_core kF cs1 = Ok (kF1, osF) /\ sign_run mt ref_core kR cs1 = Ok (kR1, osR) /\ map sign_answer osF = map sign_answer osR /\ firstn (4 + sk_size r) kF1 = kR1 /\
    sign_run mt ref_core kF1 cs2 = Ok (kF2, osF2) /\ sign_run mt ref_core kR1 cs2 = Ok (kR2, osR2) /\ map sign_answer osF2 = map sign_answer osR2 /\ firstn (4 + sk_size r) kF2 = kR2 /\
    skipn (4 + sk_size r) kF2 = skipn (4 + sk_size r) kF1.
Proof.
  intros Hrnd L1 L2 B2 L3 L4 B4 Hn1 Hn2 Ok1 Ok2.
  destruct (signer_live HE mt r Hr _ _ _ (signer_fast r)) as [SF HLF]. destruct (signer_live HE mt r Hr _ _ _ (signer_ref r)) as [SR HLR].
  destruct (live_key _ _ _ _ _ _ HLF rnd pkF skF Hrnd L1 L2 B2) as (a & b & c & d & kF & Hf & Hct & Hmat & HSF & HkF).
  destruct (live_key _ _ _ _ _ _ HLR rnd pkR skR Hrnd L3 L4 B4) as (a' & b' & c' & d' & kR & Hf' & Hct' & Hmat' & HSR & HkR).
  rewrite Hmat in Hmat'. assert (a' = a) by congruence. assert (b' = b) by congruence. assert (c' = c) by congruence. assert (d' = d) by congruence. clear Hct Hct' Hf'. subst a' b' c' d'. clear Hmat'.
  destruct (live_run mt r _ _ _ SF HLF a b c d Hf cs1 0%N kF HSF ltac:(lia) Ok1) as (kF1 & osF & HSF1 & HrF & TF).
  destruct (live_run mt r _ _ _ SR HLR a b c d Hf cs1 0%N kR HSR ltac:(lia) Ok1) as (kR1 & osR & HSR1 & HrR & TR).
  assert (Hcut : forall i ext, firstn (4 + sk_size r) (secret_key r i a b c d ++ ext) = secret_key r i a b c d).
  { intros i ext. apply firstn_app_len. symmetry. now apply (secret_key_length r). }
  assert (Hskip : forall i ext, skipn (4 + sk_size r) (secret_key r i a b c d ++ ext) = ext).
  { intros i ext. apply skipn_app_len. symmetry. now apply (secret_key_length r). }
  assert (HshR : forall i k, SR a b c d i k -> k = secret_key r i a b c d).
  { intros i k HSk. destruct (live_shape _ _ _ _ _ _ HLR a b c d i k Hf HSk) as (Lk & ext & Ek). rewrite Ek, app_length, (secret_key_length r _ _ _ _ _ Hf) in Lk.
    assert (ext = []) by (destruct ext; [reflexivity|cbn [List.length] in Lk; lia]). subst ext. now rewrite app_nil_r in Ek. }
  destruct (live_shape _ _ _ _ _ _ HLF a b c d _ kF Hf HSF) as (_ & e0 & E0).
  destruct (live_shape _ _ _ _ _ _ HLF a b c d _ kF1 Hf HSF1) as (_ & e1 & Ek1).
  pose proof (HshR _ _ HSR) as R0. pose proof (HshR _ _ HSR1) as R1.
  destruct (run_ext a b c d e1 Hf cs2 (0 + N.of_nat (List.length cs1))%N ltac:(lia) Ok2) as (osF2 & HrF2 & TF2).
  destruct (run_ext a b c d [] Hf cs2 (0 + N.of_nat (List.length cs1))%N ltac:(lia) Ok2) as (osR2 & HrR2 & TR2). rewrite !app_nil_r in HrR2.
  exists (public_key r c d), kF, kR, kF1, kR1. eexists _, _, osF, osR, osF2, osR2.
  split; [exact HkF|]. split; [exact HkR|]. split; [rewrite E0, R0; apply Hcut|].
  split; [exact HrF|]. split; [exact HrR|]. split; [exact (told_answers a b c d cs1 0%N osF osR TF TR)|]. split; [rewrite Ek1, R1; apply Hcut|].
  split; [rewrite Ek1; exact HrF2|]. split; [rewrite R1; exact HrR2|]. split; [exact (told_answers a b c d cs2 _ osF2 osR2 TF2 TR2)|]. split; [apply Hcut|].
  rewrite Ek1, !Hskip. reflexivity.
Qed.

(** C64 *)
Lemma back rnd pkF skF cs m1 sm1 l1 c : (forall i, (rnd i < 256)%N) -> a_core c ->
  List.length pkF = 4 + pk_size r -> List.length skF = 4 + fast_size r -> bytes_ok skF ->
  let i := N.of_nat (List.length cs) in (i + 2 < fast_limit r)%N -> Forall (call_ok r) cs -> sig_size r + List.length m1 <= List.length sm1 ->
  let sks := map rnd (seq 0 n) in let prfk := map rnd (seq n n) in let seed := map rnd (seq (2 * n) n) in let rt := mt_root P sks seed in
  exists pk kF kF1 osF o1,
    keypair mt fast_core pkF skF (r_oid r) rnd = Ok (0%Z, pk, kF) /\ sign_run mt fast_core kF cs = Ok (kF1, osF) /\
    sign mt ref_core kF1 sm1 l1 m1 = Ok o1 /\ so_rc o1 = 0%Z /\ signed_message o1 = mt_sign P sks prfk rt seed i m1 ++ m1 /\ sk_index r (so_sk o1) = (i + 1)%N /\
    (N.odd i = true -> ((i + 1) mod 2 ^ N.of_nat (sp_th P) <> 0)%N -> forall m2 sm2 l2, sig_size r + List.length m2 <= List.length sm2 -> exists o2, sign mt fast_core (so_sk o1) sm2 l2 m2 = Ok o2) /\
    forall m2 sm2 l2 o2, sig_size r + List.length m2 <= List.length sm2 -> sign mt fast_core (so_sk o1) sm2 l2 m2 = Ok o2 ->
      let out := signed_message o2 in
      so_rc o2 = 0%Z /\ sm_index r out = (i + 1)%N /\ skipn (sig_size r) out = m2 /\
      firstn (sp_th P * n) (upper_part r out) = concat (auth_path P sks seed 0 (tree_of P i 0) (leaf_of P i 0)) /\
      (bytes_ok out -> forall mbuf mlen oo, List.length out <= List.length mbuf -> sign_open mt c mbuf mlen out pk = Ok oo -> oo_rc oo = 0%Z -> forall m', bytes_ok m' ->
       let honest := mt_sign P sks prfk rt seed (i + 1) m' in
       let q1 := verify_queries P seed rt honest m' in let q2 := verify_queries P seed rt (firstn (sig_size r) out) (skipn (sig_size r) out) in
       leaf P sks seed 0 (tree_of P i 0) (sibling (leaf_of P i 0)) = leaf P sks seed 0 (tree_of P (i + 1) 0) (sibling (leaf_of P (i + 1) 0)) \/
       collision P seed q1 q2 \/ 1 < r_d r /\ preimage P seed rt honest m' q1 q2).
Proof.
  intros Hrnd Hc L1 L2 B2 i Hn Hok Hm1 sks prfk seed rt. pose proof (signer_fast r) as Hs. pose proof (limit_le mt r Hr _ _ _ Hs) as Hlim. pose proof (pow_h_le mt r Hr) as Hph.
  destruct (signer_live HE mt r Hr _ _ _ Hs) as [St HL].
  destruct (live_key _ _ _ _ _ _ HL rnd pkF skF Hrnd L1 L2 B2) as (a & b & ct & d & kF & Hf & Hct & Hmat & HS & HkF).
  unfold key_material in Hmat. cbv zeta in Hmat.
  assert (Ea : sks = a) by (unfold sks; congruence). assert (Ed : seed = d) by (unfold seed; congruence). assert (Eb : prfk = b) by (unfold prfk; congruence).
  assert (Ec : rt = ct) by (unfold rt; congruence). rewrite Ec, Ea, Eb, Ed. clear Hmat. clearbody sks prfk seed. clear rt Ec. subst sks prfk seed.
  destruct (live_run mt r _ _ _ St HL a b ct d Hf cs 0%N kF HS ltac:(lia) Hok) as (kF1 & osF & HS1 & HrF & _). rewrite N.add_0_l in HS1. fold i in HS1.
  destruct (live_ser _ _ _ _ _ _ HL _ _ _ _ _ _ Hf HS1 eq_refl) as (ext & Es & Hser).
  pose proof Hf as [[La [Lb [Lc Ld]]] _].
  pose proof (step_ext i a b ct d ext sm1 l1 m1 Hf ltac:(lia) Hm1) as Hst. rewrite <- Es in Hst.
  eexists _, kF, kF1, osF, _. split; [exact HkF|]. split; [exact HrF|]. split; [exact Hst|]. cbn [so_rc so_sk]. split; [reflexivity|].
  assert (Lsg : forall j x, List.length (mt_sign P a b ct d j x) = sig_size r) by (intros; apply (mt_sign_len HE mt r Hr)).
  split. { unfold signed_message. cbn [so_sm so_smlen]. rewrite app_assoc. apply firstn_app_len. now rewrite app_length, Lsg. }
  set (tk := secret_key r (i + 1) a b ct d ++ ext).
  assert (Ix : sk_index r tk = (i + 1)%N).
  { unfold tk, sk_index, secret_key. rewrite <- !app_assoc, skipn_app_len, firstn_app_len by (now rewrite toByte_length). rewrite os2ip_toByte. apply N.mod_small. lia. }
  split; [exact Ix|]. split.
  { intros Hodd Hend m2 sm2 l2 Hm2. exact (live_behind _ _ _ _ _ _ HL a b ct d i kF1 ext sm2 l2 m2 Hf HS1 eq_refl Es ltac:(lia) Hodd Hend Hm2). }
  intros m2 sm2 l2 o2 Hm2 Ho.
  assert (Ltk : List.length tk = 4 + fast_size r).
  { unfold tk. rewrite app_length, secret_key_length, (ser_len mt r Hr ext Hser), (fast_size_eq mt r Hr) by exact Hf. unfold sk_size. lia. }
  assert (Otk : firstn 4 tk = toByte (r_oid r) 4).
  { unfold tk, secret_key. rewrite <- app_assoc. apply firstn_app_len. now rewrite toByte_length. }
  assert (Hky : keyish r tk).
  { apply mk_keyish; [exact Ltk|exact Otk|]. unfold tk, secret_key. rewrite <- !app_assoc, app_assoc. rewrite firstn_app_len by (rewrite app_length, !toByte_length; reflexivity). rewrite bytes_ok_app. split; apply toByte_ok. }
  destruct (any_step mt r Hr tk (mkCall m2 sm2 l2) o2 Hky Ho) as (_ & [(Hge & _)|(_ & (G1 & G2 & G3 & G4 & G5) & _)]).
  { rewrite Ix in Hge. lia. }
  cbn [c_m c_sm c_smlen] in *.
  assert (Uu : forall x y, sig_size r <= List.length x -> upper_part r (firstn (sig_size r + y) x) = upper_part r x).
  { intros x y Hx. unfold upper_part. rewrite firstn_firstn, Nat.min_l by lia. reflexivity. }
  assert (Hi1 : (i + 1 < top)%N) by lia. assert (Hi2 : (i + 1 + 1 < top)%N) by lia.
  destruct (released_of_ext mt r Hr ext Hser) as (T & HT).
  destruct (live_step _ _ _ _ _ _ HL a b ct d i kF1 sm1 l1 m1 Hf HS1 ltac:(lia) Hm1) as (sk1 & _ & Hsg1).
  rewrite Es in Hsg1. pose proof (HT _ _ _ _ _ _ _ _ _ La Lb Lc Ld (rows_h60 mt r Hr) Hi1 Hsg1) as U1. cbn [so_sm] in U1. rewrite (released_upper mt r Hr) in U1.
  pose proof (HT _ _ _ _ _ _ _ _ _ La Lb Lc Ld (rows_h60 mt r Hr) Hi2 Ho) as U2. rewrite (released_upper mt r Hr) in U2.
  assert (Lsm : sig_size r + List.length m2 <= List.length (so_sm o2)) by (rewrite G3; exact Hm2).
  assert (Eout : signed_message o2 = firstn (sig_size r + List.length m2) (so_sm o2)) by (unfold signed_message; now rewrite G2).
  assert (Lout : List.length (signed_message o2) = sig_size r + List.length m2) by (rewrite Eout, firstn_length; lia).
  assert (Hib : ib <= sig_size r). { pose proof (po_sig _ (p_ok mt r Hr)) as X. rewrite (p_sig r), (p_ib r) in X. lia. }
  assert (Iout : sm_index r (signed_message o2) = (i + 1)%N).
  { rewrite <- Ix, <- G4, Eout. unfold sm_index. rewrite firstn_firstn, Nat.min_l by lia. reflexivity. }
  assert (Pout : firstn (sp_th P * n) (upper_part r (signed_message o2)) = concat (auth_path P a d 0 (tree_of P i 0) (leaf_of P i 0))).
  { rewrite Eout, Uu, U2, <- U1 by lia. apply (sig_path HE mt r Hr a b ct d i m1). }
  split; [exact G1|]. split; [exact Iout|]. split; [exact G5|]. split; [exact Pout|].
  intros Bo mbuf mlen oo Lmb Hop Hrc m' Bm'.
  pose proof (pk_is_key r a b ct d Hf) as Hk. set (out := signed_message o2) in *.
  assert (Lo : sig_size r <= List.length out) by lia.
  destruct (open_decides HE mt r c mbuf mlen out (public_key r ct d) Hr Hc Hk Lo Bo Lmb) as (oa & Hoa & _ & V1 & V2 & _).
  assert (oa = oo) by congruence. subst oa.
  destruct (open_decides HE mt r c (uninit (List.length out)) (N.to_nat (junk 0)) out (public_key r ct d) Hr Hc Hk Lo Bo) as (ob & Hob & _ & W1 & W2 & _); [now rewrite uninit_length|].
  destruct (mt_verify _ _ _ _ _); [|destruct (V2 eq_refl) as (X & _); rewrite Hrc in X; discriminate].
  destruct (W1 eq_refl) as (Rob & _).
  pose proof (open_tool mt r c (public_key r ct d) [] out _ _ Hr Hc Hk eq_refl eq_refl ob Hob) as Hx. rewrite Rob in Hx. cbn [Z.eqb] in Hx.
  exact (stale_rejected HE mt r Hr a b ct d c [] i out m' Hf Hct Hc Hi1 Bo Bm' Lo Iout Pout Hx).
Qed.

End Switch.
