(** Fast core, several layers, behind the public API. *)
From Verif Require Import Base ModelUtils ModelParams ModelCommons ModelCore ModelCoreFast ModelXmss.
From Verif Require Import SpecRfc SpecFips202 SpecParams SpecApi SpecComp SpecFast Lib ProofUtils ProofHash ProofCore ProofParams ProofApi ProofHistory ProofMain.
From Verif Require Import ProofSched ProofBds1 ProofBds2 ProofBds3 ProofBds4 ProofFast1 ProofFast2 ProofFast3 ProofFast4 ProofFast5 ProofFast6 ProofFast7 ProofTree ProofMt1 ProofMt2 ProofMt4 ProofMt5 ProofMt6.

Section MtRow.
Context {E : Env}.
Hypothesis HE : env_ok E.
Variable r : row.
Hypothesis Hr : In r (rows true).
Notation p := (row_params r (sk_fast r)).
Notation P := (row_sp r).
Notation n := (r_n r).
Notation ib := (idx_size r).
Let Hp := fp_ok true r Hr.
Let HH := fp_hash HE true r Hr.
Let Hk := fp_kH true r Hr.

Lemma mr_th : 5 <= sp_th P <= 20.
Proof.
  assert (Hx : forallb (fun r => (5 <=? r_h r / r_d r) && (r_h r / r_d r <=? 20)) (rows true) = true) by (vm_compute; reflexivity).
  rewrite forallb_forall in Hx. specialize (Hx r Hr). unfold sp_th. cbn [sp_h sp_d row_sp]. apply andb_true_iff in Hx as [A B]. apply Nat.leb_le in A, B. lia.
Qed.
Lemma mr_H3 : 3 <= tree_height p. Proof. rewrite (fp_th r). pose proof mr_th. lia. Qed.
Lemma mr_HU : Nat.min (thcount p) (tree_height p - 2) <= 2 * ((tree_height p - bds_k p) / 2).
Proof.
  change (bds_k p) with 0. rewrite Nat.sub_0_r. unfold thcount. change (bds_k p) with 0. rewrite Nat.sub_0_r. rewrite (fp_th r).
  pose proof (Nat.div_mod (sp_th P) 2 ltac:(lia)). pose proof (Nat.mod_upper_bound (sp_th P) 2 ltac:(lia)). lia.
Qed.
Lemma mr_U : (tree_height p - bds_k p) / 2 = sp_th P / 2.
Proof. change (bds_k p) with 0. now rewrite Nat.sub_0_r, (fp_th r). Qed.
Lemma mr_h : r_h r = sp_th P * r_d r.
Proof. pose proof (po_h p Hp) as X. rewrite (fp_h r), (fp_th r), row_dd in X. rewrite X. apply Nat.mul_comm. Qed.
Lemma mr_lim : (fast_limit r <= 2 ^ N.of_nat (r_h r))%N.
Proof. unfold fast_limit; change (r_h r / r_d r) with (sp_th P). apply N.pow_le_mono_r; [lia|]. rewrite mr_h. pose proof (Nat.le_min_l (r_d r) (sp_th P / 2 + 2)) as X. pose proof (Nat.mul_le_mono_l _ _ (sp_th P) X). clear - H. lia. Qed.
Lemma mr_few : few_layers r -> fast_limit r = (2 ^ N.of_nat (r_h r))%N.
Proof. intros Hd. unfold fast_limit; change (r_h r / r_d r) with (sp_th P). rewrite mr_h, Nat.min_l by exact Hd. reflexivity. Qed.
Lemma mr_win i : (i + 1 < fast_limit r)%N -> p_d p <= (tree_height p - bds_k p) / 2 + 2 \/ (i + 1 < 2 ^ N.of_nat (tree_height p * ((tree_height p - bds_k p) / 2 + 2)))%N.
Proof.
  intros Hi. rewrite mr_U, (fp_th r), row_dd. unfold fast_limit in Hi; change (r_h r / r_d r) with (sp_th P) in Hi. destruct (Nat.min_spec (r_d r) (sp_th P / 2 + 2)) as [[A B]|[A B]]; rewrite B in Hi; [left; lia|right; exact Hi].
Qed.

Definition goodm (sks seed : bytes) (i : N) (ext : bytes) : Prop :=
  exists ss ws, mtinv p (row_hash r) sks seed i ss ws /\ (sp_th P <= 5 -> sp_th P / 2 + 2 < r_d r -> behind p i ss) /\ ext = concat (map (store_state p) ss) ++ ws.

Lemma mstep sks prfk rt seed : length sks = n -> length prfk = n -> length rt = n -> length seed = n ->
  forall i ext sm smlen m, goodm sks seed i ext -> (i + 1 < fast_limit r)%N -> sig_size r + length m <= length sm ->
  exists ext', goodm sks seed (i + 1) ext' /\
  fsg true p (sk_layout (toByte i ib) sks prfk rt seed ext) sm smlen m =
  Ok (mkSign 0 (sk_layout (toByte (i + 1) ib) sks prfk rt seed ext')
       (mt_sign P sks prfk rt seed i m ++ m ++ skipn (sig_size r + length m) sm) (sig_size r + length m)).
Proof.
  intros L1 L2 L3 L4 i ext sm smlen m (ss & ws & Hs & Hbh & ->) Hi Hsm.
  pose proof (fast_mt_sign_spec p (row_hash r) Hp HH Hk mr_H3 mr_HU) as Hf. rewrite row_n, sp_of_row, fp_sig, (fp_ib r), (fp_h r) in Hf.
  assert (Hi' : (i + 1 < 2 ^ N.of_nat (r_h r))%N) by (pose proof mr_lim as X; clear - Hi X; lia).
  pose proof (mr_win i Hi) as Hw. rewrite (fp_th r), row_dd in Hw. rewrite (fp_th r), row_dd in Hf.
  destruct (Hf sks seed L1 L4 prfk rt L2 L3 i ss ws sm m smlen [] Hi' Hw Hs Hsm) as (ss' & ws' & Hs' & Hb' & Heq).
  exists (concat (map (store_state p) ss') ++ ws'). split; [exists ss', ws'; split; [exact Hs'|]; split; [|reflexivity]|].
  { intros A B. apply Hb'; [exact A| |exact (Hbh A B)]. change (bds_k p) with 0. rewrite Nat.sub_0_r. exact B. }
  rewrite !app_nil_r in Heq. exact Heq.
Qed.
Lemma mstep_few sks prfk rt seed : few_layers r -> length sks = n -> length prfk = n -> length rt = n -> length seed = n ->
  forall i ext sm smlen m, goodm sks seed i ext -> (i + 1 < 2 ^ N.of_nat (r_h r))%N -> sig_size r + length m <= length sm ->
  exists ext', goodm sks seed (i + 1) ext' /\
  fsg true p (sk_layout (toByte i ib) sks prfk rt seed ext) sm smlen m =
  Ok (mkSign 0 (sk_layout (toByte (i + 1) ib) sks prfk rt seed ext')
       (mt_sign P sks prfk rt seed i m ++ m ++ skipn (sig_size r + length m) sm) (sig_size r + length m)).
Proof. intros Hd L1 L2 L3 L4 i ext sm smlen m Hg Hi. rewrite <- (mr_few Hd) in Hi. now apply mstep. Qed.
Lemma mser sks seed i ext : length sks = n -> length seed = n -> goodm sks seed i ext -> ser_image p ext.
Proof.
  intros L1 L2 (ss & ws & Hs & _ & ->). exists ss, ws. split; [reflexivity|].
  split; [|apply Hs]. rewrite <- (row_n r (sk_fast r)) in L1, L2. exact (mtinv_ok p (row_hash r) Hp HH Hk mr_H3 mr_HU sks seed L1 L2 i ss ws Hs).
Qed.
Lemma mkey pk sk rnd : length pk = 4 + pk_size r -> length sk = 4 + fast_size r -> bytes_ok sk ->
  let sks := map rnd (seq 0 n) in let prfk := map rnd (seq n n) in let seed := map rnd (seq (2 * n) n) in
  let rt := mt_root P sks seed in
  exists ext, goodm sks seed 0%N ext /\
  keypair true fast_core pk sk (r_oid r) rnd = Ok (0%Z, public_key r rt seed, secret_key r 0 sks prfk rt seed ++ ext).
Proof.
  intros Lpk Lsk Hb sks prfk seed rt. unfold pk_size in Lpk. pose proof (fast_size_eq true r Hr) as Hfs.
  pose proof (fast_mt_keypair_spec p (row_hash r) Hp HH Hk mr_H3 mr_HU) as Hf. rewrite row_n, sp_of_row, (fp_ib r) in Hf.
  specialize (Hf (skipn 4 pk) (skipn 4 sk) rnd). rewrite !skipn_length in Hf. specialize (Hf ltac:(lia)).
  specialize (Hf ltac:(now apply bytes_ok_skipn) ltac:(lia)). cbv zeta in Hf. destruct Hf as (ss & ws & Hs & Hbh & Heq).
  change (rand_take rnd 0 n) with sks in *. change (rand_take rnd n n) with prfk in *. change (rand_take rnd (2 * n) n) with seed in *. fold rt in Heq.
  exists (concat (map (store_state p) ss) ++ ws). split; [exists ss, ws; auto|].
  rewrite (fkeypair_eq true r Hr) by lia. cbn [fkp]. rewrite Heq, bind_ok. rewrite !skipn_all2 by (rewrite skipn_length; lia). rewrite !app_nil_r.
  rewrite <- layout_ext. unfold public_key. reflexivity.
Qed.
Lemma mlen sks seed i ext : length sks = n -> length seed = n -> goodm sks seed i ext -> length ext = ser_bytes p.
Proof. intros L1 L2 Hg. apply (ser_len true r Hr), (mser sks seed i ext L1 L2 Hg). Qed.

(** the traversal data of a key after any history *)
Lemma mt_reach rnd pk0 sk0 cs pk sk : (forall i, (rnd i < 256)%N) ->
  length pk0 = 4 + pk_size r -> length sk0 = 4 + fast_size r -> bytes_ok sk0 ->
  keypair true fast_core pk0 sk0 (r_oid r) rnd = Ok (0%Z, pk, sk) -> Forall (call_ok r) cs -> (N.of_nat (length cs) < fast_limit r)%N ->
  exists sk' os ss ws, sign_run true fast_core sk cs = Ok (sk', os) /\
    xmssmt_deserialize_state p (skipn 4 sk') = Ok (ss, ws) /\
    length (sk_field r 0 sk) = n /\ length (sk_field r 3 sk) = n /\
    mtinv p (row_hash r) (sk_field r 0 sk) (sk_field r 3 sk) (N.of_nat (length cs)) ss ws /\ (sp_th P <= 5 -> sp_th P / 2 + 2 < r_d r -> behind p (N.of_nat (length cs)) ss).
Proof.
  intros Hb Hpk Hsk Bsk Hkp Hok Hi.
  destruct (fkey_mat HE true r Hr goodm mkey pk0 sk0 rnd Hb Hpk Hsk Bsk) as (a & b & c & d & ext & Hf & Hct & Hmat & HG & Hkp').
  assert (Esk : sk = secret_key r 0 a b c d ++ ext) by congruence. subst sk.
  destruct (fsk_parts r 0 a b c d ext Hf) as (_ & _ & _ & E0 & _ & _ & E3). cbv zeta in *. rewrite E0, E3.
  pose proof Hf as [(F1 & F2 & F3 & F4) _].
  destruct (frun_live true r Hr a b c d (goodm a d) (fast_limit r) (mstep a b c d F1 F2 F3 F4) cs 0%N ext HG) as (os & ext' & HG' & S1 & S2 & S3); [now rewrite N.add_0_l|exact Hok|].
  rewrite N.add_0_l in *. destruct HG' as (ss & ws & Hinv & Hbh & ->).
  eexists _, os, ss, ws. split; [exact S1|]. split; [|auto].
  rewrite <- layout_ext. rewrite skipn_app_len by (now rewrite toByte_length). unfold sk_layout. rewrite !app_assoc. rewrite <- (app_assoc _ (concat _) ws). rewrite <- (app_nil_r ws) at 1.
  apply (deserialize_spec p Hk (fp_H30 true r Hr) (fp_d true r Hr)).
  - rewrite !app_length, toByte_length, (fp_ib r), row_n, F1, F2, F3, F4. clear. lia.
  - rewrite <- (row_n r (sk_fast r)) in F1, F4. exact (mtinv_ok p (row_hash r) Hp HH Hk mr_H3 mr_HU a d F1 F4 _ ss ws Hinv).
  - apply Hinv.
Qed.
Lemma mt_stored sks seed i ss ws : length sks = n -> length seed = n -> mtinv p (row_hash r) sks seed i ss ws ->
  length ss = 2 * r_d r - 1 /\ length ws = (r_d r - 1) * (sp_len P * n) /\
  (forall l, l < r_d r -> exists s, nth_error ss l = Some s /\ st_auth s = concat (auth_path P sks seed (N.of_nat l) (tree_of P i l) (leaf_of P i l))) /\
  (forall l, l + 1 < r_d r -> firstn (sp_len P * n) (skipn (l * (sp_len P * n)) ws) =
     concat (wots_sig P seed (N.of_nat (l + 1)) (tree_of P i (l + 1)) (leaf_of P i (l + 1)) sks (root P sks seed (N.of_nat l) (tree_of P i l)))).
Proof.
  intros L1 L4 Hinv. pose proof Hinv as (I1 & I2 & I3 & I4). rewrite <- (row_n r (sk_fast r)) in L1, L4.
  unfold nstates in I1. rewrite row_dd in I1, I2, I3, I4. rewrite row_wsig, row_n, (fp_len r) in I2. split; [exact I1|]. split; [exact I2|]. split.
  - intros l Hl. destruct (layer_cur p (row_hash r) sks seed i l ss (I3 l Hl)) as (f & u & base & s & A1 & _).
    exists s. split; [exact A1|].
    pose proof (layer_auth p (row_hash r) Hp HH Hk mr_H3 mr_HU sks seed L1 L4 i l ss (I3 l Hl)) as La.
    rewrite (nth_error_nth ss l _ A1), sp_of_row in La. exact La.
  - intros l Hl. pose proof (I4 l ltac:(lia)) as U4. unfold ck in U4. rewrite row_wsig, row_n, (fp_len r) in U4. rewrite U4.
    unfold ProofMt4.up_sig. rewrite sp_of_row. rewrite <- (sp_of_row r (sk_fast r)). rewrite !(tree_hi p (row_hash r) Hp), (leaf_dig' p (row_hash r) Hp).
    rewrite Nat.add_1_r. reflexivity.
Qed.

Lemma full_win i l : l + 1 < r_d r -> p_d p <= (tree_height p - bds_k p) / 2 + 2 \/ (i + 1 < 2 ^ N.of_nat (tree_height p * ((tree_height p - bds_k p) / 2 + 2)))%N ->
  full (tree_height p) i (S l) -> l <= (tree_height p - bds_k p) / 2.
Proof.
  intros Hl [A|A] F; [rewrite row_dd in A; lia|]. pose proof (up_same_window p i (S l) A F) as X. clear - X. lia.
Qed.

(** the next tree when the last leaf of a tree is about to be used *)
Lemma mt_next_built sks seed i ss ws l : length sks = n -> length seed = n -> mtinv p (row_hash r) sks seed i ss ws -> l + 1 < r_d r ->
  (i + 1 < fast_limit r)%N -> ((i + 1) mod 2 ^ N.of_nat (sp_th P * (l + 1)) = 0)%N ->
  exists nx, nth_error ss (r_d r + l) = Some nx /\
    (st_next_leaf nx + (if (l =? 0)%nat then 1 else 0) = 2 ^ N.of_nat (sp_th P))%N /\
    (0 < l -> firstn n (st_stack nx) = root P sks seed (N.of_nat l) (tree_of P (i + 1) l)).
Proof.
  intros L1 L4 Hinv Hl Li Hfull. pose proof Hinv as (I1 & I2 & I3 & I4). rewrite <- (row_n r (sk_fast r)) in L1, L4. rewrite row_dd in I3.
  destruct (I3 l ltac:(lia)) as (s & f & u & base & A1 & A2 & A3). rewrite row_dd in A3. destruct (A3 ltac:(lia)) as (nx & N1 & N2).
  assert (F : full (tree_height p) i (S l)) by (apply full_mod; rewrite (fp_th r), <- Nat.add_1_r; exact Hfull).
  assert (Li' : (i + 1 < 2 ^ N.of_nat (tree_height p * p_d p))%N).
  { pose proof (po_h p Hp) as X. rewrite Nat.mul_comm, <- X, (fp_h r). pose proof mr_lim as Y. clear - Li Y. lia. }
  exists nx. split; [exact N1|]. destruct (Nat.eqb_spec l 0) as [->|Hl0].
  - split; [|lia]. destruct N2 as (_ & _ & N4).
    assert (Hex : ex_next p i 0).
    { unfold ex_next. rewrite <- (proj1 (hi_step (tree_height p) i 1) F). replace (p_d p - 1 - 0) with (p_d p - 1) by lia. apply hi_lt; [exact Li'|]. rewrite row_dd. lia. }
    destruct (N4 Hex) as (e & Q1 & Q2 & Q3). rewrite (pt_next _ _ _ _ _ _ _ _ Q2). unfold link in Q3. cbn [Nat.eqb] in Q3.
    destruct F as [_ D]. rewrite Q3, D, <- (fp_th r), pow2_of_nat. pose proof (pow2_pos_nat (tree_height p)). lia.
  - destruct (next_complete p (row_hash r) mr_H3 mr_HU sks seed i l s nx f u base) as [Q _]; try assumption.
    { rewrite row_dd. lia. } { pose proof (mr_win i Li) as W. exact (full_win i l Hl W F). } { destruct (Nat.eqb_spec l 0); [lia|exact N2]. }
    split; [rewrite N.add_0_r, (pt_next _ _ _ _ _ _ _ _ Q), (fp_th r); reflexivity|]. intros _.
    pose proof (pt_stack _ _ _ _ _ _ _ _ Q) as Stn. rewrite (bst_top p (row_hash r) Hp) in Stn by assumption.
    cbn [srepr fst snd length] in Stn. destruct Stn as (S1 & _). unfold ck in S1. rewrite Nat.mul_0_l in S1. cbn [skipn] in S1. rewrite <- (row_n r (sk_fast r)).
    rewrite S1, <- (sp_of_row r (sk_fast r)), (tree_hi p (row_hash r) Hp). reflexivity.
Qed.
End MtRow.

Lemma mt_stored_api (E : Env) : env_ok E -> forall r, In r (rows true) ->
  forall p rnd pk0 sk0 cs pk sk, SpecApi.parse_oid true fast_core_sk_bytes uninit_params (r_oid r) = Ok (Some p) -> (forall i, (rnd i < 256)%N) ->
  length pk0 = 4 + pk_size r -> length sk0 = 4 + fast_size r -> bytes_ok sk0 ->
  keypair true fast_core pk0 sk0 (r_oid r) rnd = Ok (0%Z, pk, sk) -> Forall (call_ok r) cs ->
  (N.of_nat (length cs) < fast_limit r)%N ->
  let P := row_sp r in let i := N.of_nat (length cs) in let sks := sk_field r 0 sk in let seed := sk_field r 3 sk in
  let w := sp_len P * r_n r in
  exists sk' os ss ws, sign_run true fast_core sk cs = Ok (sk', os) /\
    xmssmt_deserialize_state p (skipn 4 sk') = Ok (ss, ws) /\
    length ss = 2 * r_d r - 1 /\ length ws = (r_d r - 1) * w /\
    (forall l, l < r_d r -> exists s, nth_error ss l = Some s /\
       st_auth s = concat (auth_path P sks seed (N.of_nat l) (tree_of P i l) (leaf_of P i l))) /\
    (forall l, l + 1 < r_d r -> firstn w (skipn (l * w) ws) =
       concat (wots_sig P seed (N.of_nat (l + 1)) (tree_of P i (l + 1)) (leaf_of P i (l + 1)) sks
                 (root P sks seed (N.of_nat l) (tree_of P i l)))).
Proof.
  intros HE r Hr p rnd pk0 sk0 cs pk sk Hpo Hb L1 L2 B Hkp Hok Hn. cbv zeta.
  assert (Ep : p = row_params r (sk_fast r)).
  { pose proof (parse_accept_fast true r uninit_params Hr) as Hpa. unfold SpecApi.parse_oid, ProofParams.parse_oid in *; congruence. }
  subst p. destruct (mt_reach HE r Hr rnd pk0 sk0 cs pk sk Hb L1 L2 B Hkp Hok Hn) as (sk' & os & ss & ws & R1 & R2 & R3 & R4 & R5 & _).
  exists sk', os, ss, ws. split; [exact R1|]. split; [exact R2|]. exact (mt_stored HE r Hr _ _ _ ss ws R3 R4 R5).
Qed.
Lemma mt_next_api (E : Env) : env_ok E -> forall r, In r (rows true) ->
  forall p rnd pk0 sk0 cs pk sk l, SpecApi.parse_oid true fast_core_sk_bytes uninit_params (r_oid r) = Ok (Some p) -> (forall i, (rnd i < 256)%N) ->
  length pk0 = 4 + pk_size r -> length sk0 = 4 + fast_size r -> bytes_ok sk0 ->
  keypair true fast_core pk0 sk0 (r_oid r) rnd = Ok (0%Z, pk, sk) -> Forall (call_ok r) cs ->
  let P := row_sp r in let i := N.of_nat (length cs) in let sks := sk_field r 0 sk in let seed := sk_field r 3 sk in
  l + 1 < r_d r -> (i + 1 < fast_limit r)%N -> ((i + 1) mod 2 ^ N.of_nat (sp_th P * (l + 1)) = 0)%N ->
  exists sk' os ss ws nx, sign_run true fast_core sk cs = Ok (sk', os) /\
    xmssmt_deserialize_state p (skipn 4 sk') = Ok (ss, ws) /\ nth_error ss (r_d r + l) = Some nx /\
    (st_next_leaf nx + (if (l =? 0)%nat then 1 else 0) = 2 ^ N.of_nat (sp_th P))%N /\
    (0 < l -> firstn (r_n r) (st_stack nx) = root P sks seed (N.of_nat l) (tree_of P (i + 1) l)).
Proof.
  intros HE r Hr p rnd pk0 sk0 cs pk sk l Hpo Hb L1 L2 B Hkp Hok. cbv zeta. intros Hl Hn Hfull.
  assert (Ep : p = row_params r (sk_fast r)).
  { pose proof (parse_accept_fast true r uninit_params Hr) as Hpa. unfold SpecApi.parse_oid, ProofParams.parse_oid in *; congruence. }
  subst p. destruct (mt_reach HE r Hr rnd pk0 sk0 cs pk sk Hb L1 L2 B Hkp Hok ltac:(lia)) as (sk' & os & ss & ws & R1 & R2 & R3 & R4 & R5 & _).
  destruct (mt_next_built r Hr _ _ _ ss ws l R3 R4 R5 Hl Hn Hfull) as (nx & N1 & N2 & N3).
  exists sk', os, ss, ws, nx. auto.
Qed.
