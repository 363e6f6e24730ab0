(** Fast and reference core give the same public key and the same signatures. *)
From Verif Require Import Base ModelUtils ModelParams ModelCommons ModelCore ModelCoreFast ModelXmss.
From Verif Require Import SpecRfc SpecFips202 SpecParams SpecApi SpecComp SpecFast Lib ProofUtils ProofHash ProofCore ProofParams ProofApi ProofHistory ProofMain.
From Verif Require Import ProofComp ProofCommons ProofTree ProofSched ProofBds1 ProofBds2 ProofBds3 ProofBds4 ProofFast1 ProofFast2 ProofFast3.

Section Agree.
Context {E : Env}.
Hypothesis HE : env_ok E.
Variable (mt : bool) (r : row).
Hypothesis Hr : In r (rows mt).
Notation p := (row_params r (sk_fast r)).
Notation P := (row_sp r).
Notation n := (r_n r).
Notation ib := (idx_size r).
(** an invariant of the traversal data *)
Variable G : bytes -> bytes -> N -> bytes -> Prop.
Variable M : N.
Hypothesis HM : (M <= 2 ^ N.of_nat (r_h r))%N.
Hypothesis Gstep : forall sks prfk rt seed, length sks = n -> length prfk = n -> length rt = n -> length seed = n ->
  forall i ext sm smlen m, G sks seed i ext -> (i + 1 < M)%N -> sig_size r + length m <= length sm ->
  exists ext', G sks seed (i + 1)%N ext' /\
  fsg mt p (sk_layout (toByte i ib) sks prfk rt seed ext) sm smlen m =
  Ok (mkSign 0 (sk_layout (toByte (i + 1) ib) sks prfk rt seed ext')
       (mt_sign P sks prfk rt seed i m ++ m ++ skipn (sig_size r + length m) sm) (sig_size r + length m)).
Hypothesis Glen : forall sks seed i ext, length sks = n -> length seed = n -> G sks seed i ext -> length ext = ser_bytes p.
Hypothesis Gkey : forall pk sk rnd, length pk = 4 + pk_size r -> length sk = 4 + fast_size r -> bytes_ok sk ->
  let sks := map rnd (seq 0 n) in let prfk := map rnd (seq n n) in let seed := map rnd (seq (2 * n) n) in
  let rt := mt_root P sks seed in
  exists ext, G sks seed 0%N ext /\
  keypair mt fast_core pk sk (r_oid r) rnd = Ok (0%Z, public_key r rt seed, secret_key r 0 sks prfk rt seed ++ ext).

Lemma agree rnd pkr skr pkf skf cs : (forall i, (rnd i < 256)%N) ->
  length pkr = 4 + pk_size r -> length skr = 4 + sk_size r -> length pkf = 4 + pk_size r -> length skf = 4 + fast_size r -> bytes_ok skf ->
  (N.of_nat (length cs) < M)%N -> Forall (call_ok r) cs ->
  exists pk kr kf kr' kf' ors ofs,
    keypair mt ref_core pkr skr (r_oid r) rnd = Ok (0%Z, pk, kr) /\
    keypair mt fast_core pkf skf (r_oid r) rnd = Ok (0%Z, pk, kf) /\
    length kf = 4 + fast_size r /\ firstn (4 + sk_size r) kf = kr /\
    sign_run mt ref_core kr cs = Ok (kr', ors) /\ sign_run mt fast_core kf cs = Ok (kf', ofs) /\
    length kf' = 4 + fast_size r /\ firstn (4 + sk_size r) kf' = kr' /\
    length ors = length cs /\ Forall2 same_answer ors ofs.
Proof.
  intros Hb L1 L2 L3 L4 B4 Hcs Hok.
  destruct (keypair_exact HE mt r pkr skr rnd Hr Hb L1 L2) as (a & b & c & d & Hf & Hc & Hm & Hkr).
  unfold key_material in Hm. injection Hm as Ea Eb Ec Ed. change (n + (n + 0)) with (2 * n) in Ed.
  pose proof Hf as [(F1 & F2 & F3 & F4) _].
  destruct (Gkey pkf skf rnd L3 L4 B4) as (ext & HG & Hkf). cbv zeta in *.
  rewrite Ea, Ed, Eb in Hkf. rewrite <- Hc in Hkf. rewrite Ea, Ed in HG.
  destruct (run_live HE mt r a b c d Hr Hf cs 0%N) as (ors & R1 & R2 & R3); [rewrite N.add_0_l; clear - Hcs HM; lia|exact Hok|].
  destruct (frun_live mt r Hr a b c d (G a d) M (Gstep a b c d F1 F2 F3 F4) cs 0%N ext HG) as (ofs & ext' & HG' & S1 & S2 & S3); [now rewrite N.add_0_l|exact Hok|].
  exists (public_key r c d), (secret_key r 0 a b c d), (secret_key r 0 a b c d ++ ext),
    (secret_key r (0 + N.of_nat (length cs)) a b c d), (secret_key r (0 + N.of_nat (length cs)) a b c d ++ ext'), ors, ofs.
  assert (Ls : forall i, length (secret_key r i a b c d) = 4 + sk_size r).
  { intros i. destruct (secret_key_ok r i a b c d Hf) as [Hl _]. exact Hl. }
  assert (Lf : fast_size r = sk_size r + ser_bytes p) by (rewrite (fast_size_eq mt r Hr); unfold sk_size; lia).
  split; [exact Hkr|]. split; [exact Hkf|]. split; [rewrite app_length, Ls, (Glen _ _ _ _ F1 F4 HG); lia|]. split; [now rewrite firstn_app_len|].
  split; [exact R1|]. split; [exact S1|]. split; [rewrite app_length, Ls, (Glen _ _ _ _ F1 F4 HG'); lia|]. split; [now rewrite firstn_app_len|].
  split; [exact R2|].
  assert (Hall : forall k x, nth_error cs k = Some x -> exists o1 o2, nth_error ors k = Some o1 /\ nth_error ofs k = Some o2 /\ same_answer o1 o2).
  { intros k x Hx. destruct (S3 k x Hx) as [e He]. rewrite (R3 k x Hx), He. eexists _, _. split; [reflexivity|]. split; [reflexivity|]. repeat split. }
  clear - R2 S2 Hall. revert ors ofs R2 S2 Hall. induction cs as [|x cs IH]; intros [|o1 ors] [|o2 ofs] R2 S2 Hall; try discriminate; constructor.
  - destruct (Hall 0 x eq_refl) as (? & ? & A & B & C). injection A as <-. injection B as <-. exact C.
  - apply IH; [now injection R2|now injection S2|]. intros k y Hy. exact (Hall (S k) y Hy).
Qed.
End Agree.

(** ** XMSS *)
Lemma xmss_agree {E : Env} r rnd pkr skr pkf skf cs : env_ok E -> In r (rows false) -> (forall i, (rnd i < 256)%N) ->
  length pkr = 4 + pk_size r -> length skr = 4 + sk_size r -> length pkf = 4 + pk_size r -> length skf = 4 + fast_size r -> bytes_ok skf ->
  (N.of_nat (length cs) < 2 ^ N.of_nat (r_h r))%N -> Forall (call_ok r) cs ->
  exists pk kr kf kr' kf' ors ofs,
    keypair false ref_core pkr skr (r_oid r) rnd = Ok (0%Z, pk, kr) /\
    keypair false fast_core pkf skf (r_oid r) rnd = Ok (0%Z, pk, kf) /\
    length kf = 4 + fast_size r /\ firstn (4 + sk_size r) kf = kr /\
    sign_run false ref_core kr cs = Ok (kr', ors) /\ sign_run false fast_core kf cs = Ok (kf', ofs) /\
    length kf' = 4 + fast_size r /\ firstn (4 + sk_size r) kf' = kr' /\
    length ors = length cs /\ Forall2 same_answer ors ofs.
Proof.
  intros HE Hr. apply (agree HE false r Hr (good1 r) (2 ^ N.of_nat (r_h r))%N (N.le_refl _)).
  - exact (xstep HE r Hr).
  - intros sks seed i ext _ _ (s & Hs & _ & ->). rewrite (store_state_length (row_params r (sk_fast r)) (fp_kH false r Hr) (fp_H30 false r Hr)).
    + unfold ser_bytes, nstates. rewrite row_dd, (proj1 (xr_facts r Hr)). lia.
    + destruct Hs as (? & ? & _ & _ & [[Hx _ _ _] _ _ _]). exact Hx.
  - intros pk sk rnd0 L1 L2 B. destruct (xkeypair HE r Hr pk sk rnd0 L1 L2 B) as (ext & H1 & _ & _ & H2). exists ext. auto.
Qed.

(** ** Caller-provided parameters, one tree, any k *)
Section Custom.
Context {E : Env}.
Hypothesis HE : env_ok E.
Variables (c : custom) (p0 pr pf : xmss_params).
Hypothesis Hc : custom_ok c.
Hypothesis Hd1 : cu_d c = 1.
Hypothesis Hi : inputs c p0.
Hypothesis Ir : xmss_xmssmt_initialize_params ref_core_sk_bytes p0 = Ok (0%Z, pr).
Hypothesis If : xmss_xmssmt_initialize_params fast_core_sk_bytes p0 = Ok (0%Z, pf).
Notation H := (cu_h c).
Notation k := (bds_k p0).
Notation P := (custom_sp c).
Hypothesis HkH : k < H.
Hypothesis H2 : H <> 2.
Hypothesis Hev : k <= 1 \/ Nat.Even (H - k).
Hypothesis Hsz : (fast_sk_size P k < 2 ^ 32)%N.

Lemma cr_eq : pr = cp c (f_bds_k p0) (u64 (ref_core_sk_bytes (cp c (f_bds_k p0) (f_sk_bytes p0)))).
Proof. rewrite (init_cp c Hc _ p0 Hi) in Ir. now injection Ir as <-. Qed.
Lemma cf_eq : pf = cp c (f_bds_k p0) (u64 (fast_core_sk_bytes (cp c (f_bds_k p0) (f_sk_bytes p0)))).
Proof. rewrite (init_cp c Hc _ p0 Hi) in If. now injection If as <-. Qed.
Lemma cH : H / cu_d c = H. Proof. rewrite Hd1. apply Nat.div_1_r. Qed.
Lemma cf_skN : f_sk_bytes pf = fast_sk_size P k.
Proof. rewrite cf_eq. cbn [cp f_sk_bytes]. unfold bds_k. apply (cp_fast_sk c Hc); [|exact Hsz]. rewrite cH. unfold bds_k in HkH. lia. Qed.
Lemma cr_ok : params_ok pr.
Proof. rewrite cr_eq. apply cp_ok; [exact Hc|]. rewrite (cp_ref_sk c Hc). lia. Qed.
Lemma cf_ok : params_ok pf.
Proof.
  pose proof cf_skN as Hsk. rewrite cf_eq in *. apply cp_ok; [exact Hc|]. cbn [cp f_sk_bytes] in Hsk. rewrite Hsk. unfold fast_sk_size.
  change (sp_n P) with (cu_n c). rewrite <- (N.add_assoc (_ + _)%N). apply N.le_add_r.
Qed.
Lemma cr_hash : hash_total pr (hash_of (cu_fn c) (cu_n c)). Proof. rewrite cr_eq. now apply cp_hash. Qed.
Lemma cf_hash : hash_total pf (hash_of (cu_fn c) (cu_n c)). Proof. rewrite cf_eq. now apply cp_hash. Qed.
Lemma cr_sp : sp_of pr (hash_of (cu_fn c) (cu_n c)) = P. Proof. rewrite cr_eq. now apply cp_sp. Qed.
Lemma cf_sp : sp_of pf (hash_of (cu_fn c) (cu_n c)) = P. Proof. rewrite cf_eq. now apply cp_sp. Qed.
Lemma cf_n : p_n pf = cu_n c. Proof. rewrite cf_eq. apply Nat2N.id. Qed.
Lemma cr_n : p_n pr = cu_n c. Proof. rewrite cr_eq. apply Nat2N.id. Qed.
Lemma cf_d : p_d pf = 1. Proof. rewrite cf_eq. transitivity (cu_d c); [apply Nat2N.id|exact Hd1]. Qed.
Lemma cf_H : tree_height pf = H. Proof. rewrite cf_eq. transitivity (cu_h c / cu_d c); [apply Nat2N.id|exact cH]. Qed.
Lemma cf_k : bds_k pf = k. Proof. rewrite cf_eq. reflexivity. Qed.
Lemma cf_ib : index_bytes pf = 4. Proof. rewrite (po_ib pf cf_ok). unfold sp_ib. cbn [sp_of sp_d]. now rewrite cf_d. Qed.
Lemma cr_ib : index_bytes pr = 4. Proof. rewrite (po_ib pr cr_ok). unfold sp_ib. cbn [sp_of sp_d]. rewrite cr_eq. change (p_d (cp c (f_bds_k p0) _)) with (N.to_nat (N.of_nat (cu_d c))). now rewrite Nat2N.id, Hd1. Qed.
Lemma cr_h : full_height pr = H.
Proof. rewrite cr_eq. apply Nat2N.id. Qed.
Lemma cf_sig : sig_bytes pf = sig_bytes pr. Proof. now rewrite cf_eq, cr_eq. Qed.
Lemma cf_HU : Nat.min (thcount pf) (tree_height pf - 2) <= 2 * ((tree_height pf - bds_k pf) / 2).
Proof.
  unfold thcount. rewrite cf_k, cf_H. pose proof (Nat.div_mod (H - k) 2 ltac:(lia)) as Hdm. pose proof (Nat.mod_upper_bound (H - k) 2 ltac:(lia)) as Hmu.
  destruct Hev as [Hl|[x Hx]]; [lia|]. assert (Hm0 : (H - k) mod 2 = 0) by (rewrite Hx, Nat.mul_comm; apply Nat.mod_mul; lia). lia.
Qed.
Lemma cf_sk : ModelParams.sk_bytes pf = index_bytes pf + 4 * p_n pf + state_bytes pf.
Proof.
  unfold ModelParams.sk_bytes. rewrite cf_skN, cf_ib, cf_n. unfold fast_sk_size, state_bytes, th_bytes, rcount, thcount. rewrite cf_n, cf_H, cf_k.
  replace (sp_ib P) with 4 by (unfold sp_ib; cbn [custom_sp sp_d]; now rewrite Hd1).
  change (sp_n P) with (cu_n c). change (sp_d P) with (cu_d c). unfold sp_th. cbn [custom_sp sp_h sp_d]. rewrite Hd1, Nat.div_1_r.
  change (2 * N.of_nat 1 - 1)%N with 1%N. change (N.of_nat 1 - 1)%N with 0%N. rewrite N.mul_1_l, N.mul_0_l, N.add_0_r.
  replace (N.of_nat H / 2)%N with (N.of_nat (H / 2)) by (rewrite Nat2N.inj_div; reflexivity).
  replace (2 ^ N.of_nat k - N.of_nat k - 1)%N with (N.of_nat (2 ^ k - k - 1)) by (rewrite pow2_of_nat; lia).
  replace (N.of_nat H - N.of_nat k)%N with (N.of_nat (H - k)) by lia.
  set (e := H - k). set (g := 2 ^ k - k - 1). set (t2 := H / 2). set (m := cu_n c).
  replace (N.of_nat 4 + 4 * N.of_nat m + ((N.of_nat H + 1) * N.of_nat m + 4 + (N.of_nat H + 1) + N.of_nat H * N.of_nat m + N.of_nat t2 * N.of_nat m + N.of_nat e * (7 + N.of_nat m) + N.of_nat g * N.of_nat m + 4))%N
    with (N.of_nat (4 + 4 * m + ((H + 1) * m + (4 + (H + 1 + (H * m + (t2 * m + (e * (7 + m) + (g * m + 4))))))))).
  - apply Nat2N.id.
  - rewrite !Nat2N.inj_add, !Nat2N.inj_mul, !Nat2N.inj_add. change (N.of_nat 4) with 4%N. change (N.of_nat 7) with 7%N. change (N.of_nat 1) with 1%N. lia.
Qed.

Notation n := (cu_n c).
Let rdy sks seed q s := ready pf (hash_of (cu_fn c) n) sks seed 0 0 q [] s.
Lemma cf_kH : bds_k pf < tree_height pf. Proof. rewrite cf_k, cf_H. exact HkH. Qed.
Lemma cf_H2 : tree_height pf <> 2. Proof. now rewrite cf_H. Qed.
Lemma cstep sks prfk rt seed q s x post : length sks = n -> length prfk = n -> length rt = n -> length seed = n ->
  rdy sks seed q s -> (st_next_leaf s < 2 ^ 32)%N -> q + 1 < 2 ^ H -> sig_bytes pr + length (c_m x) <= length (c_sm x) ->
  exists s', rdy sks seed (q + 1) s' /\ (st_next_leaf s' < 2 ^ 32)%N /\
    let sm' := mt_sign P sks prfk rt seed (N.of_nat q) (c_m x) ++ c_m x ++ skipn (sig_bytes pr + length (c_m x)) (c_sm x) in
    fast_xmss_core_sign pf (sk_layout (toByte (N.of_nat q) 4) sks prfk rt seed (store_state pf s ++ post)) (c_sm x) (c_smlen x) (c_m x) =
    Ok (mkSign 0 (sk_layout (toByte (N.of_nat (q + 1)) 4) sks prfk rt seed (store_state pf s' ++ post)) sm' (sig_bytes pr + length (c_m x))) /\
    forall ext, ref_xmss_core_sign pr (sk_layout (toByte (N.of_nat q) 4) sks prfk rt seed ext) (c_sm x) (c_smlen x) (c_m x) =
    Ok (mkSign 0 (sk_layout (toByte (N.of_nat (q + 1)) 4) sks prfk rt seed ext) sm' (sig_bytes pr + length (c_m x))).
Proof.
  intros L1 L2 L3 L4 Hrdy Hnl Hq Hfit.
  pose proof (fast_sign_spec pf _ cf_ok cf_hash cf_kH cf_H2 cf_HU cf_d sks prfk rt seed) as Hf. rewrite cf_n, cf_ib, cf_H, cf_sp, cf_sig in Hf.
  destruct (Hf L1 L2 L3 L4 q s (c_sm x) (c_m x) (c_smlen x) post Hq Hrdy Hnl Hfit) as (s' & A & B & C).
  exists s'. split; [exact A|]. split; [exact B|]. cbv zeta. split; [exact C|]. intros ext.
  unfold ref_xmss_core_sign. pose proof (sign_spec pr _ cr_ok cr_hash sks prfk rt seed ext) as Hs. rewrite cr_n, cr_ib, cr_h, cr_sp in Hs.
  rewrite Hs; try assumption; [|rewrite pow2_of_nat; lia]. replace (N.of_nat q + 1)%N with (N.of_nat (q + 1)) by lia. reflexivity.
Qed.
Lemma crun sks prfk rt seed : length sks = n -> length prfk = n -> length rt = n -> length seed = n ->
  forall cs q s post ext, rdy sks seed q s -> (st_next_leaf s < 2 ^ 32)%N -> q + length cs < 2 ^ H ->
  Forall (fun x => sig_bytes pr + length (c_m x) <= length (c_sm x)) cs ->
  exists s' ors ofs,
    core_run (fast_xmss_core_sign pf) (sk_layout (toByte (N.of_nat q) 4) sks prfk rt seed (store_state pf s ++ post)) cs =
      Ok (sk_layout (toByte (N.of_nat (q + length cs)) 4) sks prfk rt seed (store_state pf s' ++ post), ofs) /\
    core_run (ref_xmss_core_sign pr) (sk_layout (toByte (N.of_nat q) 4) sks prfk rt seed ext) cs =
      Ok (sk_layout (toByte (N.of_nat (q + length cs)) 4) sks prfk rt seed ext, ors) /\
    length ors = length cs /\ Forall2 same_answer ors ofs /\ Forall (fun o => so_rc o = 0%Z) ors.
Proof.
  intros L1 L2 L3 L4. induction cs as [|x cs IH]; intros q s post ext Hrdy Hnl Hq Hok.
  - exists s, [], []. cbn [core_run length]. rewrite Nat.add_0_r. repeat split; constructor.
  - inversion Hok as [|? ? Hx Hok']; subst. cbn [length] in Hq.
    destruct (cstep sks prfk rt seed q s x post L1 L2 L3 L4 Hrdy Hnl ltac:(lia) Hx) as (s1 & R1 & N1 & F1 & G1). cbv zeta in F1, G1.
    destruct (IH (q + 1) s1 post ext R1 N1 ltac:(lia) Hok') as (s' & ors & ofs & A & B & C & D & F).
    cbn [core_run length]. rewrite F1, bind_ok. cbn [so_sk]. rewrite A, bind_ok. rewrite (G1 ext), bind_ok. cbn [so_sk]. rewrite B, bind_ok.
    replace (q + S (length cs)) with (q + 1 + length cs) by lia.
    exists s'. eexists _, _. split; [reflexivity|]. split; [reflexivity|]. split; [cbn [length]; now rewrite C|]. split; constructor; auto. repeat split.
Qed.
Lemma custom_agree rnd pkr skr pkf skf cs :
  length pkr = 2 * n -> length skr = sk_bytes pr -> length pkf = 2 * n -> length skf = sk_bytes pf -> bytes_ok skf ->
  length cs < 2 ^ H -> Forall (fun x => sig_bytes pr + length (c_m x) <= length (c_sm x)) cs ->
  exists pk kr kf kr' kf' ors ofs,
    ref_xmss_core_keypair pr pkr skr rnd = Ok (0%Z, pk, kr) /\
    fast_xmss_core_keypair pf pkf skf rnd = Ok (0%Z, pk, kf) /\
    firstn (sk_bytes pr) kf = kr /\
    core_run (ref_xmss_core_sign pr) kr cs = Ok (kr', ors) /\ core_run (fast_xmss_core_sign pf) kf cs = Ok (kf', ofs) /\
    firstn (sk_bytes pr) kf' = kr' /\
    length ors = length cs /\ Forall2 same_answer ors ofs /\ Forall (fun o => so_rc o = 0%Z) ors.
Proof.
  intros Lpr Lsr Lpf Lsf Bsf Hcs Hok.
  assert (Hskr : sk_bytes pr = 4 + 4 * n).
  { pose proof cr_eq as He. unfold ModelParams.sk_bytes. rewrite He. cbn [cp f_sk_bytes]. rewrite (cp_ref_sk c Hc).
    change (sp_ib (custom_sp c)) with (sp_ib (custom_sp (E := {| sha256 := fun _ => []; sha512 := fun _ => []; junk := fun _ => 0%N |}) c)).
    unfold sp_ib. cbn [custom_sp sp_d]. rewrite Hd1. cbn [Nat.eqb]. lia. }
  set (sks := rand_take rnd 0 n). set (prfk := rand_take rnd n n). set (seed := rand_take rnd (2 * n) n). set (rt := mt_root P sks seed).
  assert (L1 : length sks = n) by apply rand_take_length. assert (L2 : length prfk = n) by apply rand_take_length. assert (L4 : length seed = n) by apply rand_take_length.
  assert (L3 : length rt = n).
  { unfold rt, mt_root. rewrite <- cf_sp. unfold root. rewrite (node_length pf _ cf_ok cf_hash). apply cf_n. }
  pose proof (fast_keypair_spec pf _ cf_ok cf_hash cf_kH cf_H2 cf_HU cf_d sks sks sks sks) as Hfk. rewrite cf_n, cf_ib, cf_sp in Hfk.
  rewrite cf_sk, cf_ib, cf_n in Lsf.
  destruct (Hfk L1 L1 L1 L1 pkf skf rnd ltac:(lia) Bsf ltac:(lia)) as (s & Hs & Hn & _ & He). cbv zeta in *. fold sks prfk seed in He, Hs. fold rt in He.
  rewrite !skipn_all2, !app_nil_r in He by lia.
  pose proof (keypair_spec pr _ cr_ok cr_hash pkr skr rnd) as Hkr. rewrite cr_n, cr_ib, cr_sp in Hkr. specialize (Hkr ltac:(lia) ltac:(lia)). cbv zeta in Hkr.
  fold sks prfk seed in Hkr. fold rt in Hkr. rewrite !skipn_all2, !app_nil_r in Hkr by lia.
  destruct (crun sks prfk rt seed L1 L2 L3 L4 cs 0 s [] [] Hs ltac:(rewrite Hn; reflexivity) Hcs Hok) as (s' & ors & ofs & A & B & C & D & F).
  assert (Lay : forall i ext, sk_layout (toByte i 4) sks prfk rt seed ext = sk_layout (toByte i 4) sks prfk rt seed [] ++ ext).
  { intros i ext. unfold sk_layout. rewrite app_nil_r, <- !app_assoc. reflexivity. }
  assert (Ll : forall i, length (sk_layout (toByte i 4) sks prfk rt seed []) = 4 + 4 * n).
  { intros i. unfold sk_layout. rewrite app_nil_r, !app_length, toByte_length. lia. }
  rewrite app_nil_r in A. cbn [Nat.add] in A, B.
  eexists (rt ++ seed), (sk_layout (toByte 0 4) sks prfk rt seed []), _, _, _, ors, ofs.
  split; [unfold ref_xmss_core_keypair; rewrite Hkr; unfold sk_layout; rewrite app_nil_r, (toByte_0 4); reflexivity|].
  split; [exact He|]. split; [rewrite Lay, Hskr; apply firstn_app_len; now rewrite Ll|].
  split; [exact B|]. split; [exact A|]. split; [rewrite Lay, Hskr; apply firstn_app_len; now rewrite Ll|]. auto.
Qed.
End Custom.
