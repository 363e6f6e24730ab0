(** The fast core behind the public API: key generation and signing of single trees. *)
From Verif Require Import Base ModelUtils ModelParams ModelCommons ModelCore ModelCoreFast ModelXmss.
From Verif Require Import SpecRfc SpecFips202 SpecParams SpecApi SpecComp SpecFast Lib ProofUtils ProofHash ProofCore ProofParams ProofApi ProofHistory ProofMain.
From Verif Require Import ProofSched ProofBds1 ProofBds2 ProofBds3 ProofBds4 ProofFast1 ProofFast2.

Section FRow.
Context {E : Env}.
Hypothesis HE : env_ok E.
Variable (mt : bool) (r : row).
Hypothesis Hr : In r (rows mt).
Notation p := (row_params r (sk_fast r)).
Notation P := (row_sp r).
Notation n := (r_n r).
Notation ib := (idx_size r).

Lemma fp_ok : params_ok p. Proof. apply (row_params_ok mt); [exact Hr|apply sk_ref_fast]. Qed.
Lemma fp_hash : hash_total p (row_hash r). Proof. now apply (row_hash_total mt). Qed.
Lemma fp_ib : index_bytes p = ib. Proof. rewrite (row_ib _ _ (row_hash r)), sp_of_row. reflexivity. Qed.
Lemma fp_th : tree_height p = sp_th P. Proof. rewrite (row_th _ _ (row_hash r)), sp_of_row. reflexivity. Qed.
Lemma fp_len : wots_len p = sp_len P. Proof. rewrite (row_len _ _ (row_hash r)), sp_of_row. reflexivity. Qed.
Lemma fp_sig : ModelParams.sig_bytes p = sig_size r.
Proof. rewrite row_sig, fp_ib, fp_len, fp_th, row_n, row_dd. unfold sig_size, sp_sig_bytes. change (sp_n P) with n. change (sp_d P) with (r_d r). unfold idx_size. lia. Qed.
Lemma fp_k : bds_k p = 0. Proof. reflexivity. Qed.
Lemma fp_kH : bds_k p < tree_height p. Proof. rewrite fp_k. pose proof (po_th p fp_ok). lia. Qed.
Lemma fp_d : 1 <= p_d p. Proof. exact (po_d p fp_ok). Qed.
Lemma fp_H30 : tree_height p <= 30. Proof. pose proof (po_th p fp_ok). lia. Qed.
Lemma fp_h : full_height p = r_h r. Proof. apply row_h. Qed.
Lemma fp_ser : ser_bytes p = (2 * r_d r - 1) * ((sp_th P + 1) * n + (4 + ((sp_th P + 1) + (sp_th P * n + (sp_th P / 2 * n + (sp_th P * (7 + n) + 4)))))) + (r_d r - 1) * (sp_len P * n).
Proof.
  unfold ser_bytes, nstates, state_bytes, th_bytes. rewrite row_dd, row_n, row_wsig, row_n, fp_len, fp_th.
  unfold thcount, rcount. rewrite fp_k, fp_th, Nat.sub_0_r. cbn [Nat.pow Nat.sub Nat.mul]. reflexivity.
Qed.
Lemma fast_size_eq : fast_size r = ib + 4 * n + ser_bytes p.
Proof.
  rewrite fp_ser. pose proof fp_d as Hd. rewrite row_dd in Hd.
  unfold fast_size, fast_sk_size. unfold idx_size. change (sp_n P) with n. change (sp_d P) with (r_d r).
  set (t := sp_th P). set (l := sp_len P). set (d := r_d r) in *. change (N.of_nat 0) with 0%N. change (2 ^ 0 - 0 - 1)%N with 0%N.
  rewrite N.sub_0_r, N.mul_0_l, N.add_0_r.
  replace (N.of_nat t / 2)%N with (N.of_nat (t / 2)) by (rewrite Nat2N.inj_div; reflexivity). set (t2 := t / 2).
  replace (2 * N.of_nat d - 1)%N with (N.of_nat (2 * d - 1)) by lia. replace (N.of_nat d - 1)%N with (N.of_nat (d - 1)) by lia.
  set (e := 2 * d - 1). set (g := d - 1).
  assert (Hx : ((N.of_nat t + 1) * N.of_nat n + 4 + (N.of_nat t + 1) + N.of_nat t * N.of_nat n + N.of_nat t2 * N.of_nat n + N.of_nat t * (7 + N.of_nat n) + 4)%N
     = N.of_nat ((t + 1) * n + (4 + (t + 1 + (t * n + (t2 * n + (t * (7 + n) + 4))))))).
  { rewrite !Nat2N.inj_add, !Nat2N.inj_mul, !Nat2N.inj_add. lia. }
  rewrite Hx. clear Hx. rewrite <- !Nat2N.inj_mul. rewrite !N2Nat.inj_add, !N2Nat.inj_mul, !Nat2N.id. change (N.to_nat 4) with 4. apply eq_sym, Nat.add_assoc.
Qed.
Lemma fp_sk : ModelParams.sk_bytes p = ib + 4 * n + ser_bytes p.
Proof.
  rewrite row_sk, <- fast_size_eq. unfold fast_size. f_equal. unfold sk_fast, fast_sk_size, sk_ref.
  change (N.of_nat 0) with 0%N. change (2 ^ 0 - 0 - 1)%N with 0%N. rewrite N.sub_0_r, N.mul_0_l. reflexivity.
Qed.

(** the functions of the fast core behind the flavour [mt] *)
Definition fkp := if mt then fast_xmssmt_core_keypair else fast_xmss_core_keypair.
Definition fsg := if mt then fast_xmssmt_core_sign else fast_xmss_core_sign.

Lemma fkeypair_eq pk sk rnd : 4 <= length pk -> 4 <= length sk ->
  keypair mt fast_core pk sk (r_oid r) rnd =
  (let* (rc, pk', sk') := fkp p (skipn 4 pk) (skipn 4 sk) rnd in
   Ok (rc, toByte (r_oid r) 4 ++ pk', toByte (r_oid r) 4 ++ sk')).
Proof.
  intros Hpk Hsk. pose proof (parse_accept_fast mt r uninit_params Hr) as Hp.
  assert (Hw : forall b, 4 <= length b -> wr b 0 (toByte (r_oid r) 4) = Ok (toByte (r_oid r) 4 ++ skipn 4 b)).
  { intros b Hb. unfold wr. rewrite toByte_length. cbn [Nat.add]. destruct (Nat.leb_spec 4 (length b)); [reflexivity|lia]. }
  unfold keypair, fkp. destruct mt; unfold xmssmt_keypair, xmss_keypair, keypair_wrapper; cbn [fast_core c_sk_bytes c_xmss_keypair c_xmssmt_keypair];
    unfold ProofParams.parse_oid in Hp; rewrite Hp, bind_ok, oid_to_bytes_spec; rewrite Hw by lia; rewrite bind_ok; rewrite Hw by lia; rewrite bind_ok; unfold XMSS_OID_LEN;
    rewrite !(skipn_app_len (toByte (r_oid r) 4)), !(firstn_app_len (toByte (r_oid r) 4)) by (now rewrite toByte_length); reflexivity.
Qed.
Lemma fsign_eq x sm smlen m :
  sign mt fast_core (toByte (r_oid r) 4 ++ x) sm smlen m =
  (let* o := fsg p x sm smlen m in
   Ok (mkSign (so_rc o) (toByte (r_oid r) 4 ++ so_sk o) (so_sm o) (so_smlen o))).
Proof.
  pose proof (parse_accept_fast mt r uninit_params Hr) as Hp. pose proof (row_oid_bytes mt r x Hr) as Ho.
  unfold sign, fsg. destruct mt; unfold xmssmt_sign, xmss_sign, sign_wrapper; cbn [fast_core c_sk_bytes c_xmss_sign c_xmssmt_sign];
    rewrite Ho, bind_ok; unfold ProofParams.parse_oid in Hp; rewrite Hp, bind_ok; unfold XMSS_OID_LEN;
    rewrite !(skipn_app_len (toByte (r_oid r) 4)), !(firstn_app_len (toByte (r_oid r) 4)) by (now rewrite toByte_length); reflexivity.
Qed.

(** ** Any traversal invariant kept by one signature gives the reference signatures *)
Section Life.
Variables a b c d : bytes.
Variable G : N -> bytes -> Prop.
Variable M : N.
Hypothesis Hstep : forall i ext sm smlen m, G i ext -> (i + 1 < M)%N -> sig_size r + length m <= length sm ->
  exists ext', G (i + 1)%N ext' /\
  fsg p (sk_layout (toByte i ib) a b c d ext) sm smlen m =
  Ok (mkSign 0 (sk_layout (toByte (i + 1) ib) a b c d ext')
       (mt_sign P a b c d i m ++ m ++ skipn (sig_size r + length m) sm) (sig_size r + length m)).
Lemma layout_ext i ext : toByte (r_oid r) 4 ++ sk_layout (toByte i ib) a b c d ext = secret_key r i a b c d ++ ext.
Proof. unfold sk_layout, secret_key. rewrite <- !app_assoc. reflexivity. Qed.
Lemma fstep_live i ext x : G i ext -> (i + 1 < M)%N -> call_ok r x ->
  exists ext', G (i + 1)%N ext' /\
  sign mt fast_core (secret_key r i a b c d ++ ext) (c_sm x) (c_smlen x) (c_m x) =
  Ok (mkSign 0 (secret_key r (i + 1) a b c d ++ ext')
       (mt_sign P a b c d i (c_m x) ++ c_m x ++ skipn (sig_size r + length (c_m x)) (c_sm x)) (sig_size r + length (c_m x))).
Proof.
  intros HG Hi Hx. destruct (Hstep i ext (c_sm x) (c_smlen x) (c_m x) HG Hi Hx) as (ext' & HG' & He).
  exists ext'. split; [exact HG'|]. rewrite <- layout_ext, fsign_eq, He, bind_ok. cbn [so_rc so_sk so_sm so_smlen]. now rewrite layout_ext.
Qed.
Lemma frun_live : forall cs i ext, G i ext ->
  (i + N.of_nat (length cs) < M)%N -> Forall (call_ok r) cs ->
  exists os ext', G (i + N.of_nat (length cs))%N ext' /\
   sign_run mt fast_core (secret_key r i a b c d ++ ext) cs = Ok (secret_key r (i + N.of_nat (length cs)) a b c d ++ ext', os) /\ length os = length cs /\
   forall k x, nth_error cs k = Some x -> exists e,
     nth_error os k = Some (mkSign 0 (secret_key r (i + N.of_nat k + 1) a b c d ++ e)
       (mt_sign P a b c d (i + N.of_nat k) (c_m x) ++ c_m x ++ skipn (sig_size r + length (c_m x)) (c_sm x)) (sig_size r + length (c_m x))).
Proof.
  induction cs as [|x cs IH]; intros i ext HG Hi Hok.
  - exists [], ext. cbn [length sign_run]. change (N.of_nat 0) with 0%N. rewrite N.add_0_r. split; [exact HG|]. split; [reflexivity|]. split; [reflexivity|]. intros [|k] x Hx; discriminate.
  - inversion Hok as [|? ? Hx Hok']; subst. cbn [length] in Hi.
    destruct (fstep_live i ext x HG ltac:(lia) Hx) as (e1 & HG1 & He1).
    destruct (IH (i + 1)%N e1 HG1 ltac:(lia) Hok') as (os & ext' & HG' & H1 & H2 & H3).
    cbn [sign_run]. rewrite He1, bind_ok. cbn [so_sk]. rewrite H1, bind_ok.
    eexists _, ext'. cbn [length]. replace (i + N.of_nat (S (length cs)))%N with (i + 1 + N.of_nat (length cs))%N by lia. split; [exact HG'|]. split; [reflexivity|]. split.
    + cbn [length]. now rewrite H2.
    + intros [|k] y Hy.
      * injection Hy as <-. cbn [nth_error]. change (N.of_nat 0) with 0%N. rewrite N.add_0_r. exists e1. reflexivity.
      * cbn [nth_error]. destruct (H3 k y Hy) as [e Hk]. rewrite Hk. replace (i + 1 + N.of_nat k)%N with (i + N.of_nat (S k))%N by lia. exists e. reflexivity.
Qed.
End Life.
End FRow.

(** ** XMSS: every single-tree parameter set *)
Section Xmss.
Context {E : Env}.
Hypothesis HE : env_ok E.
Variable r : row.
Hypothesis Hr : In r (rows false).
Notation p := (row_params r (sk_fast r)).
Notation P := (row_sp r).
Notation n := (r_n r).
Notation ib := (idx_size r).
Let Hp := fp_ok false r Hr.
Let HH := fp_hash HE false r Hr.
Let Hk := fp_kH false r Hr.

Lemma xr_facts : r_d r = 1 /\ 10 <= sp_th P <= 20.
Proof.
  assert (Hx : forallb (fun r => (r_d r =? 1) && (10 <=? r_h r / r_d r) && (r_h r / r_d r <=? 20)) (rows false) = true) by (vm_compute; reflexivity).
  rewrite forallb_forall in Hx. specialize (Hx r Hr). unfold sp_th. cbn [sp_h sp_d row_sp]. lia.
Qed.
Lemma xr_H : tree_height p = sp_th P. Proof. apply fp_th. Qed.
Lemma xr_H2 : tree_height p <> 2. Proof. rewrite xr_H. pose proof xr_facts. lia. Qed.
Lemma xr_HU : Nat.min (thcount p) (tree_height p - 2) <= 2 * ((tree_height p - bds_k p) / 2).
Proof.
  change (bds_k p) with 0. rewrite Nat.sub_0_r. unfold thcount. change (bds_k p) with 0. rewrite Nat.sub_0_r. pose proof xr_facts. rewrite xr_H.
  pose proof (Nat.div_mod (sp_th P) 2 ltac:(lia)). pose proof (Nat.mod_upper_bound (sp_th P) 2 ltac:(lia)). lia.
Qed.
Definition good1 (sks seed : bytes) (i : N) (ext : bytes) : Prop :=
  exists s, ready p (row_hash r) sks seed 0 0 (N.to_nat i) [] s /\ (st_next_leaf s < 2 ^ 32)%N /\ ext = store_state p s.

Lemma xstep sks prfk rt seed : length sks = n -> length prfk = n -> length rt = n -> length seed = n ->
  forall i ext sm smlen m, good1 sks seed i ext -> (i + 1 < 2 ^ N.of_nat (r_h r))%N -> sig_size r + length m <= length sm ->
  exists ext', good1 sks seed (i + 1) ext' /\
  fsg false p (sk_layout (toByte i ib) sks prfk rt seed ext) sm smlen m =
  Ok (mkSign 0 (sk_layout (toByte (i + 1) ib) sks prfk rt seed ext')
       (mt_sign P sks prfk rt seed i m ++ m ++ skipn (sig_size r + length m) sm) (sig_size r + length m)).
Proof.
  intros L1 L2 L3 L4 i ext sm smlen m (s & Hs & Hn & ->) Hi Hsm.
  pose proof (fast_sign_spec p (row_hash r) Hp HH Hk xr_H2 xr_HU) as Hf. rewrite row_dd, row_n, sp_of_row, fp_sig, (fp_ib r) in Hf.
  specialize (Hf (proj1 xr_facts) sks prfk rt seed L1 L2 L3 L4 (N.to_nat i) s sm m smlen []).
  rewrite !app_nil_r, N2Nat.id in Hf. replace (N.of_nat (N.to_nat i + 1)) with (i + 1)%N in Hf by lia.
  destruct Hf as (s' & Hs' & Hn' & Heq); try assumption.
  { rewrite xr_H. unfold sp_th. cbn [sp_h sp_d row_sp]. rewrite (proj1 xr_facts), Nat.div_1_r. rewrite pow2_of_nat in Hi. lia. }
  exists (store_state p s'). split.
  - exists s'. split; [|split; [exact Hn'|reflexivity]]. replace (N.to_nat (i + 1)) with (N.to_nat i + 1) by lia. exact Hs'.
  - cbn [fsg]. rewrite app_nil_r in Heq. exact Heq.
Qed.
Lemma xstate : fast_size r = ib + 4 * n + state_bytes p.
Proof. rewrite (fast_size_eq false r Hr). unfold ser_bytes, nstates. rewrite row_dd, (proj1 xr_facts). lia. Qed.
Lemma xkeypair pk sk rnd : length pk = 4 + pk_size r -> length sk = 4 + fast_size r -> bytes_ok sk ->
  let sks := map rnd (seq 0 n) in let prfk := map rnd (seq n n) in let seed := map rnd (seq (2 * n) n) in
  let rt := mt_root P sks seed in
  exists ext, good1 sks seed 0 ext /\ length ext = state_bytes p /\
  firstn ((sp_th P + 1) * n) ext = firstn ((sp_th P + 1) * n) (skipn (4 + sk_size r) sk) /\
  keypair false fast_core pk sk (r_oid r) rnd = Ok (0%Z, public_key r rt seed, secret_key r 0 sks prfk rt seed ++ ext).
Proof.
  intros Lpk Lsk Hb sks prfk seed rt. unfold pk_size in Lpk. pose proof xstate as Hfs.
  pose proof (fast_keypair_spec p (row_hash r) Hp HH Hk xr_H2 xr_HU) as Hf. rewrite row_dd, row_n, sp_of_row, (fp_ib r) in Hf.
  assert (Ls : length sks = n) by (unfold sks; now rewrite map_length, seq_length).
  specialize (Hf (proj1 xr_facts) sks sks sks sks Ls Ls Ls Ls (skipn 4 pk) (skipn 4 sk) rnd). rewrite !skipn_length in Hf. specialize (Hf ltac:(lia)).
  specialize (Hf ltac:(now apply bytes_ok_skipn) ltac:(lia)). cbv zeta in Hf. destruct Hf as (s & Hs & Hn & Hst & Heq).
  change (rand_take rnd 0 n) with sks in *. change (rand_take rnd n n) with prfk in *. change (rand_take rnd (2 * n) n) with seed in *. fold rt in Heq.
  exists (store_state p s). split; [|split; [|split]].
  - exists s. split; [exact Hs|]. split; [rewrite Hn; reflexivity|reflexivity].
  - apply store_state_length; [exact Hk|apply (fp_H30 false r Hr)|]. destruct Hs as (? & ? & _ & _ & [[Hx _ _ _] _ _ _]). exact Hx.
  - rewrite skipn_skipn, xr_H in Hst. unfold sk_size. rewrite (Nat.add_comm 4), <- Hst. unfold store_state. apply firstn_app_len.
    destruct Hs as (? & ? & _ & _ & [[Hx _ _ _] _ _ _]). rewrite (sh_stack p s Hx), xr_H, row_n. reflexivity.
  - rewrite (fkeypair_eq false r Hr) by lia. cbn [fkp]. rewrite Heq, bind_ok. rewrite !skipn_all2 by (rewrite skipn_length; lia). rewrite !app_nil_r.
    rewrite <- layout_ext. unfold public_key. reflexivity.
Qed.
End Xmss.
