(** Two multi-tree keys of the fast core with the same public key and the same signed messages, whose
    traces differ: for a hash function that makes the second bottom tree the only place where the two keys differ. *)
From Coq Require Import ZArith String.
From Verif Require Import Base Lib SpecRfc ModelUtils ModelParams ModelHash ModelWots ModelCommons ModelCore ModelCoreFast ModelXmss
  ProofUtils ProofHash ProofWots ProofCommons ProofTree ProofCore SpecParams SpecApi ProofParams ProofApi ProofHistory SpecFast ModelLeak ModelLeakFast SpecLeak
  ProofLeak ProofLeak2 ProofLeak3 ProofLeak5 ProofLeak6 ProofLeak7 ProofLeak8 ProofLeak9 ProofLeak10 ProofLeak11 ProofLeak12 ProofLeak13 ProofLeak14 ProofLeak15 ProofLeak16 ProofFast3 ProofMain ProofMt1 ProofMt7.

Section At.
Context {E : Env}.
Hypothesis HE : env_ok E.
Variable r : row.
Hypothesis Hr : In r (rows true).
Notation n := (r_n r).
Lemma watch_at a b c d : length a = n -> length b = n -> length c = n -> length d = n ->
  forall cs i ext t q, goodm r a d i ext -> (i + N.of_nat (length cs) < fast_limit r)%N -> Forall (call_ok r) cs -> nth_error cs t = Some q ->
  exists ext' o, goodm r a d (i + N.of_nat t) ext' /\
  outcome (fast_sign_seen true (secret_key r (i + N.of_nat t) a b c d ++ ext') (c_sm q) (c_smlen q) (c_m q)) = Ok o /\
  nth_error (watch (fast_sign_seen true) (secret_key r i a b c d ++ ext) cs) t =
  Some (trace (fast_sign_seen true (secret_key r (i + N.of_nat t) a b c d ++ ext') (c_sm q) (c_smlen q) (c_m q))).
Proof.
  intros Ha Hb Hc Hd. induction cs as [|q cs IH]; intros i ext t q' HG Hi Hcs Hq'; [destruct t; discriminate|].
  inversion Hcs as [|q0 cs' Hq Hqs]; subst. cbn [length] in Hi. cbn [watch].
  destruct (fstep_live true r Hr a b c d (goodm r a d) (fast_limit r) (mstep HE r Hr a b c d Ha Hb Hc Hd) i ext q HG ltac:(lia) Hq) as (ext' & HG' & Hs).
  pose proof (seen_fast_sign true (secret_key r i a b c d ++ ext) (c_sm q) (c_smlen q) (c_m q)) as Ho. rewrite Hs in Ho.
  destruct t as [|t]; cbn [nth_error] in Hq' |- *.
  - assert (q' = q) by congruence. subst q'. rewrite N.add_0_r. exists ext. eexists. split; [exact HG|]. split; [exact Ho|reflexivity].
  - rewrite Ho. cbn [so_sk]. destruct (IH (i + 1)%N ext' t q' HG' ltac:(lia) Hqs Hq') as (e2 & o & A & B & C).
    replace (i + N.of_nat (Datatypes.S t))%N with (i + 1 + N.of_nat t)%N by lia. exists e2, o. auto.
Qed.
Lemma run_signs a b c d : length a = n -> length b = n -> length c = n -> length d = n ->
  forall cs i ext, goodm r a d i ext -> (i + N.of_nat (length cs) < fast_limit r)%N -> Forall (call_ok r) cs ->
  exists k os, sign_run true fast_core (secret_key r i a b c d ++ ext) cs = Ok (k, os) /\
  map signed_message os = map (fun q => mt_sign (row_sp r) a b c d (i + N.of_nat (fst q)) (c_m (snd q)) ++ c_m (snd q)) (combine (seq 0 (length cs)) cs).
Proof.
  intros Ha Hb Hc Hd. induction cs as [|q cs IH]; intros i ext HG Hi Hcs; [exists (secret_key r i a b c d ++ ext), []; auto|].
  inversion Hcs as [|q0 cs' Hq Hqs]; subst. cbn [length] in Hi. cbn [sign_run].
  destruct (fstep_live true r Hr a b c d (goodm r a d) (fast_limit r) (mstep HE r Hr a b c d Ha Hb Hc Hd) i ext q HG ltac:(lia) Hq) as (ext' & HG' & Hs).
  rewrite Hs. cbn [bind so_sk]. destruct (IH (i + 1)%N ext' HG' ltac:(lia) Hqs) as (k & os & H1 & H2). rewrite H1. cbn [bind].
  eexists k, _. split; [reflexivity|]. cbn [map length seq combine fst snd]. f_equal.
  - unfold signed_message. cbn [so_sm so_smlen]. pose proof (sig_len HE true r Hr a b c d i (c_m q) Ha Hb Hc Hd) as Hsl. rewrite N.add_0_r.
    rewrite (app_assoc _ (c_m q)), (firstn_app_len (mt_sign (row_sp r) a b c d i (c_m q) ++ c_m q)) by (rewrite app_length; lia). reflexivity.
  - rewrite H2, <- seq_shift. clear. generalize (seq 0 (length cs)). intros l. revert cs. induction l as [|x l IH]; intros [|q1 cs]; try reflexivity.
    cbn [map combine fst snd]. f_equal; [|apply IH]. replace (i + 1 + N.of_nat x)%N with (i + N.of_nat (Datatypes.S x))%N by lia. reflexivity.
Qed.
End At.

(** ** The hash function: the nodes of a tree are copies of its leaves *)
Definition cst (v : N) : bytes := repeat v 32.
Definition copy_hash (x : bytes) : bytes :=
  match nth 31 x 0%N with
  | 0%N | 1%N => cst (nth 64 x 0%N mod 256)                                            (* F and H: the (first) node *)
  | 4%N => if (nth 32 x 0%N =? 1)%N && (nth 107 x 0%N =? 1)%N then cst 7 else cst 0      (* PRF_keygen: one key, tree 1 *)
  | _ => cst 0
  end.
Definition copy_env : Env := {| sha256 := copy_hash; sha512 := fun _ => repeat 0%N 64; junk := fun _ => 0%N |}.
Lemma copy_env_ok : env_ok copy_env.
Proof.
  assert (Hc : forall v, (v < 256)%N -> length (cst v) = 32 /\ bytes_ok (cst v)).
  { intros v Hv. split; [apply repeat_length|]. unfold cst. apply Forall_forall. intros y Hy. apply repeat_spec in Hy. now subst. }
  intros x. cbn [sha256 sha512 copy_env]. split.
  - unfold copy_hash. repeat match goal with |- context [match ?v with _ => _ end] => destruct v end; apply Hc; try reflexivity; apply N.mod_lt; discriminate.
  - split; [apply repeat_length|]. apply Forall_forall. intros y Hy. apply repeat_spec in Hy. now subst.
Qed.

#[local] Existing Instance copy_env.
Definition mt4 : row := mkRow true 2 "SHA2"%string SHA2 32 20 4.      (* XMSSMT-SHA2_20/4_256 *)
Notation P := (row_sp mt4).
Definition seedA := cst 1. Definition seedB := cst 3. Definition prfk := cst 2. Definition pubs := cst 4.

Lemma prf_zero k m : PRF P k m = cst 0. Proof. reflexivity. Qed.
Definition val (v : N) : Prop := v = 0%N \/ v = 7%N.
Lemma f_copy v : val v -> F P (cst 0) (xorb_spec (cst v) (cst 0)) = cst v.
Proof. intros [-> | ->]; reflexivity. Qed.
Lemma rh_copy seed A v : val v -> RAND_HASH P seed A (cst v) (cst v) = cst v.
Proof. intros Hv. unfold RAND_HASH. rewrite !prf_zero. destruct Hv as [-> | ->]; reflexivity. Qed.
Lemma chain_copy seed L T o c i v s : val v -> chain P seed L T o (cst v) c i s = cst v.
Proof. intros Hv. induction s as [|s IH]; [reflexivity|]. cbn [chain]. rewrite IH, !prf_zero. now apply f_copy. Qed.
Lemma level_copy seed L T o h v : val v -> forall m l i, length l <= m -> Forall (eq (cst v)) l -> Forall (eq (cst v)) (ltree_level P seed L T o h i l).
Proof.
  intros Hv. induction m as [|m IH]; intros [|a [|b l]] i Hm Hl; cbn [ltree_level length] in *; try lia; auto.
  inversion Hl as [|? ? E1 Hl1]; inversion Hl1 as [|? ? E2 Hl2]; subst. constructor; [symmetry; now apply rh_copy|]. apply IH; [lia|exact Hl2].
Qed.
Lemma level_ne seed L T o h i l : l <> [] -> ltree_level P seed L T o h i l <> [].
Proof. destruct l as [|a [|b l]]; cbn; congruence. Qed.
Lemma ltree_copy seed L T o v : val v -> forall k h l, l <> [] -> Forall (eq (cst v)) l -> ltree P seed L T o k h l = cst v.
Proof.
  intros Hv. induction k as [|k IH]; intros h l Hn Hl; cbn [ltree].
  - destruct l; [congruence|]. inversion Hl. now subst.
  - destruct (length l <=? 1); [destruct l; [congruence|]; inversion Hl; now subst|]. apply IH; [now apply level_ne|now apply (level_copy seed L T o h v Hv (length l))].
Qed.
Lemma root_copy sks L T v : val v -> (forall i c, wots_sk P pubs L T i sks c = cst v) -> root P sks pubs L T = cst v.
Proof.
  intros Hv Hsk. unfold root. generalize (sp_th P) at 1. intros j. generalize 0%N. revert j. induction j as [|j IH]; intros i; cbn [node].
  - unfold leaf. apply ltree_copy; [exact Hv| |].
    + unfold wots_pk. destruct (sp_len P) eqn:El; [discriminate|]. discriminate.
    + unfold wots_pk. apply Forall_forall. intros y Hy. apply in_map_iff in Hy. destruct Hy as (c & <- & _). rewrite Hsk. symmetry. now apply chain_copy.
  - rewrite !IH. now apply rh_copy.
Qed.
Lemma skA i c : wots_sk P pubs 0 1 i seedA c = cst 7. Proof. reflexivity. Qed.
Lemma skB L T i c : wots_sk P pubs L T i seedB c = cst 0. Proof. reflexivity. Qed.
Lemma sk_same L i c : wots_sk P pubs L 0 i seedA c = wots_sk P pubs L 0 i seedB c. Proof. reflexivity. Qed.

(** trees number 0 are the same *)
Lemma node_same L j : forall i, node P seedA pubs L 0 j i = node P seedB pubs L 0 j i.
Proof. induction j as [|j IH]; intros i; cbn [node]; [|now rewrite !IH]. unfold leaf. replace (wots_pk P pubs L 0 i seedA) with (wots_pk P pubs L 0 i seedB); [reflexivity|]. unfold wots_pk. apply map_ext. intros c. now rewrite sk_same. Qed.
Lemma wsig_same L i M : wots_sig P pubs L 0 i seedA M = wots_sig P pubs L 0 i seedB M.
Proof. unfold wots_sig. apply map_ext. intros c. rewrite sk_same. reflexivity. Qed.
Lemma auth_same L i : auth_path P seedA pubs L 0 i = auth_path P seedB pubs L 0 i.
Proof. unfold auth_path. apply map_ext. intros j. apply node_same. Qed.
Lemma tree_0 i k : (i < 32)%N -> tree_of P i k = 0%N.
Proof.
  intros Hi. unfold tree_of. apply N.div_small. eapply N.lt_le_trans; [exact Hi|]. change 32%N with (2 ^ 5)%N. apply N.pow_le_mono_r; [discriminate|]. change (sp_th P) with 5. lia.
Qed.
Lemma lmsg_same M i k : (i < 32)%N -> layer_msg P seedA pubs M i k = layer_msg P seedB pubs M i k.
Proof. intros Hi. destruct k as [|k]; [reflexivity|]. cbn [layer_msg]. rewrite tree_0 by exact Hi. apply node_same. Qed.
Lemma lsig_same M i k : (i < 32)%N -> layer_sig P seedA pubs M i k = layer_sig P seedB pubs M i k.
Proof. intros Hi. unfold layer_sig. cbv zeta. rewrite tree_0, lmsg_same, wsig_same, auth_same by exact Hi. reflexivity. Qed.
Lemma sign_same c i m : (i < 32)%N -> mt_sign P seedA prfk c pubs i m = mt_sign P seedB prfk c pubs i m.
Proof.
  intros Hi. unfold mt_sign. cbv zeta. set (M := H_msg P _ _ _ _). rewrite (map_ext (layer_sig P seedA pubs M i) (layer_sig P seedB pubs M i)) by (intros k; now apply lsig_same). reflexivity.
Qed.
Lemma rootA : root P seedA pubs 0 1 = cst 7. Proof. apply root_copy; [now right|]. intros; apply skA. Qed.
Lemma rootB : root P seedB pubs 0 1 = cst 0. Proof. apply root_copy; [now left|]. intros; apply skB. Qed.

Definition rndA (i : nat) : N := if i <? 32 then 1%N else if i <? 64 then 2%N else 4%N.
Definition rndB (i : nat) : N := if i <? 32 then 3%N else if i <? 64 then 2%N else 4%N.
Notation r := mt4.
Lemma mt4_in : In mt4 (rows true).
Proof. vm_compute. tauto. Qed.
Notation p := (row_params r (sk_fast r)).
Lemma roll_0 sks : roll_digits p (row_hash r) sks pubs 31 0 = wots_digits P (root P sks pubs 0 1).
Proof.
  unfold roll_digits, rolls. rewrite row_dd, (fp_th r), sp_of_row. change (sp_th P) with 5. change (r_d r) with 4. change (N.of_nat 0) with 0%N.
  replace (_ && _) with true by reflexivity. reflexivity.
Qed.
Lemma roll_S sks c : roll_digits p (row_hash r) sks pubs 31 (Datatypes.S c) = [].
Proof.
  unfold roll_digits, rolls. rewrite (fp_th r). change (sp_th P) with 5.
  replace ((31 + 1) mod _ =? 0)%N with false; [now rewrite andb_false_r|]. symmetry. apply N.eqb_neq.
  rewrite N.mod_small; [discriminate|]. change (31 + 1)%N with (2 ^ 5)%N. apply N.pow_lt_mono_r; [reflexivity|lia].
Qed.
Lemma chains_31 sks b rt ext sm smlen m o : length sks = 32 -> length b = 32 -> length rt = 32 -> goodm r sks pubs 31 ext ->
  outcome (fast_sign_seen true (secret_key r 31 sks b rt pubs ++ ext) sm smlen m) = Ok o ->
  chains (trace (fast_sign_seen true (secret_key r 31 sks b rt pubs ++ ext) sm smlen m)) =
  map (chain_trace P) (wots_digits P (H_msg P (PRF P b (toByte 31 32)) rt 31 m)) ++ map (chain_trace P) (wots_digits P (root P sks pubs 0 1)).
Proof.
  intros Ha Hb Hc HG Ho. rewrite (mt_row_chains copy_env_ok r mt4_in 31 sks b rt pubs ext sm smlen m o Ha Hb Hc eq_refl HG) by (reflexivity || exact Ho).
  change (seq 0 (r_d r)) with (seq 0 4). cbn [seq map concat]. rewrite roll_0, !roll_S. cbn [map app]. rewrite app_nil_r. reflexivity.
Qed.
Lemma digits_differ : map (chain_trace P) (wots_digits P (cst 7)) <> map (chain_trace P) (wots_digits P (cst 0)).
Proof. intros H. apply (f_equal (fun l => option_map (@length _) (nth_error l 1))) in H. revert H. vm_compute. discriminate. Qed.

Lemma two_keys cs : length cs = 32 -> Forall (call_ok r) cs ->
  exists pk k k' k1 k1' os os' w w',
  keypair true fast_core (repeat 0%N 68) (repeat 0%N 10942) (r_oid r) rndA = Ok (0%Z, pk, k) /\
  keypair true fast_core (repeat 0%N 68) (repeat 0%N 10942) (r_oid r) rndB = Ok (0%Z, pk, k') /\
  sign_run true fast_core k cs = Ok (k1, os) /\ sign_run true fast_core k' cs = Ok (k1', os') /\
  map signed_message os = map signed_message os' /\
  nth_error (watch (fast_sign_seen true) k cs) 31 = Some w /\ nth_error (watch (fast_sign_seen true) k' cs) 31 = Some w' /\ w <> w'.
Proof.
  intros Hl Hok.
  assert (L1 : length (repeat 0%N 68) = 4 + pk_size r) by (rewrite repeat_length; vm_compute; reflexivity).
  assert (L2 : length (repeat 0%N 10942) = 4 + fast_size r) by (rewrite repeat_length; vm_compute; reflexivity).
  assert (L3 : bytes_ok (repeat 0%N 10942)) by (apply Forall_forall; intros y Hy; apply repeat_spec in Hy; now subst).
  destruct (mkey copy_env_ok r mt4_in _ _ rndA L1 L2 L3) as (eA & GA & KA). destruct (mkey copy_env_ok r mt4_in _ _ rndB L1 L2 L3) as (eB & GB & KB).
  revert GA KA GB KB. change (map rndA (seq 0 (r_n r))) with seedA. change (map rndA (seq (r_n r) (r_n r))) with prfk. change (map rndA (seq (2 * r_n r) (r_n r))) with pubs.
  change (map rndB (seq 0 (r_n r))) with seedB. change (map rndB (seq (r_n r) (r_n r))) with prfk. change (map rndB (seq (2 * r_n r) (r_n r))) with pubs.
  assert (Er : mt_root P seedA pubs = mt_root P seedB pubs) by apply node_same. rewrite Er.
  pose proof (root_facts copy_env_ok true r seedB pubs mt4_in) as [Lc _]. set (rt := mt_root P seedB pubs) in *. clearbody rt. intros GA KA GB KB.
  assert (LA : length seedA = r_n r) by apply repeat_length. assert (LB : length seedB = r_n r) by apply repeat_length.
  assert (Lp : length prfk = r_n r) by apply repeat_length. assert (Lu : length pubs = r_n r) by apply repeat_length.
  assert (Hlim : (0 + N.of_nat (length cs) < fast_limit r)%N) by (rewrite Hl; vm_compute; reflexivity).
  destruct (nth_error cs 31) as [q|] eqn:Eq; [|apply nth_error_None in Eq; lia].
  destruct (run_signs copy_env_ok r mt4_in seedA prfk rt pubs LA Lp Lc Lu cs 0 eA GA Hlim Hok) as (k1 & os & R1 & S1).
  destruct (run_signs copy_env_ok r mt4_in seedB prfk rt pubs LB Lp Lc Lu cs 0 eB GB Hlim Hok) as (k2 & os' & R2 & S2).
  destruct (watch_at copy_env_ok r mt4_in seedA prfk rt pubs LA Lp Lc Lu cs 0 eA 31 q GA Hlim Hok Eq) as (xA & oA & HA & OA & WA).
  destruct (watch_at copy_env_ok r mt4_in seedB prfk rt pubs LB Lp Lc Lu cs 0 eB 31 q GB Hlim Hok Eq) as (xB & oB & HB & OB & WB).
  change (0 + N.of_nat 31)%N with 31%N in *.
  do 9 eexists. split; [exact KA|]. split; [exact KB|]. split; [exact R1|]. split; [exact R2|]. split; [|split; [exact WA|split; [exact WB|]]].
  - rewrite S1, S2. apply map_ext_in. intros [x y] Hxy. apply in_combine_l in Hxy. apply in_seq in Hxy. cbn [fst snd]. rewrite sign_same by lia. reflexivity.
  - intros H. apply (f_equal chains) in H. rewrite (chains_31 _ _ _ _ _ _ _ _ LA Lp Lc HA OA), (chains_31 _ _ _ _ _ _ _ _ LB Lp Lc HB OB), rootA, rootB in H.
    apply app_inv_head in H. now apply digits_differ in H.
Qed.
