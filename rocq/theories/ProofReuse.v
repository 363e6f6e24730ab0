From Verif Require Import Base Lib ModelUtils ModelParams ModelHash ModelCommons ModelCore ModelCoreFast ModelXmss SpecRfc SpecParams SpecApi SpecTools SpecReuse ProofUtils ProofHash ProofWots ProofTree ProofCore ProofParams ProofApi ProofHistory ProofMain ProofUi2.
From Verif Require ProofSec.
Local Open Scope nat_scope.

Section Reuse.
Context {E : Env}.
Hypothesis HE : env_ok E.
Variables (mt : bool) (r : row).
Hypothesis Hr : In r (rows mt).
Notation P := (row_sp r).
Notation n := (r_n r).
Notation ib := (idx_size r).
Notation p := (row_params r (sk_ref r)).
Variables a b ct d : bytes.
Hypothesis Hf : fields r a b ct d.
Hypothesis Hct : ct = mt_root P a d.
Notation pk := (public_key r ct d).

(** the signature number [i] of [m] with any randomiser [R] *)
Definition sig_with (R : bytes) (i : N) (m : bytes) : bytes :=
  toByte i ib ++ R ++ concat (map (layer_sig P a d (H_msg P R ct i m) i) (seq 0 (sp_d P))).
Lemma mt_sign_with i m : mt_sign P a b ct d i m = sig_with (PRF P b (toByte i 32)) i m.
Proof. reflexivity. Qed.
Lemma PRF_n x y : length (PRF P x y) = n.
Proof. rewrite <- (sp_of_row r (sk_ref r)), <- (row_n r (sk_ref r)). apply (PRF_length p (row_hash r) (p_hash HE mt r Hr)). Qed.
Definition upper i : bytes := concat (auth_path P a d 0 (tree_of P i 0) (leaf_of P i 0)) ++ concat (map (layer_sig P a d [] i) (seq 1 (sp_d P - 1))).
Definition low_wots R i m : list bytes := wots_sig P d 0 (tree_of P i 0) (leaf_of P i 0) a (H_msg P R ct i m).
Lemma sig_shape R i m : sig_with R i m = toByte i ib ++ R ++ concat (low_wots R i m) ++ upper i.
Proof.
  unfold sig_with, upper, low_wots. pose proof (po_d p (p_ok mt r Hr)) as Hd. rewrite row_dd in Hd. change (sp_d P) with (r_d r).
  replace (seq 0 (r_d r)) with (0 :: seq 1 (r_d r - 1)) by (replace (r_d r) with (S (r_d r - 1)) at 2 by lia; reflexivity). cbn [map concat].
  do 2 f_equal. unfold layer_sig at 1. cbv zeta. change (N.of_nat 0) with 0%N. change (layer_msg P a d (H_msg P R ct i m) i 0) with (H_msg P R ct i m). rewrite <- app_assoc. do 2 f_equal.
  f_equal. apply map_ext_in. intros k Hk. apply in_seq in Hk. destruct k as [|k]; [lia|]. reflexivity.
Qed.
Lemma low_len R i m : length (low_wots R i m) = sp_len P.
Proof. unfold low_wots, wots_sig. now rewrite map_length, seq_length. Qed.
Lemma low_chunked R i m : chunked n (low_wots R i m).
Proof. unfold low_wots. rewrite <- (sp_of_row r (sk_ref r)), <- (row_n r (sk_ref r)). apply (wots_sig_chunked p (row_hash r) (p_hash HE mt r Hr)). Qed.
Lemma sig_with_len R i m : length R = n -> length (sig_with R i m) = sig_size r.
Proof.
  intros LR. pose proof (mt_sign_len HE mt r Hr a b ct d i m) as L. rewrite mt_sign_with, sig_shape, !app_length, PRF_n in L. rewrite sig_shape, !app_length, LR, <- L.
  rewrite !(chunked_length n) by apply low_chunked. now rewrite !low_len.
Qed.
Lemma sig_with_verifies R i m : length R = n -> (i < 2 ^ N.of_nat (r_h r))%N -> mt_verify P ct d (sig_with R i m) m = true.
Proof.
  intros LR Hi. pose proof Hf as [[La [Lb [Lc Ld]]] _]. pose proof (p_ok mt r Hr) as Hp. pose proof (po_ib_le p Hp) as [_ Hibh]. pose proof (pow2_lt_256 _ _ Hibh) as Hp256.
  rewrite row_h, p_ib in Hp256. pose proof (po_d p Hp) as Hd. rewrite row_dd in Hd.
  unfold mt_verify, sig_with. change (sp_ib P) with ib. change (sp_n P) with n.
  set (M := H_msg P R ct i m). rewrite (firstn_app_len (toByte i ib)) by (now rewrite toByte_length).
  rewrite os2ip_toByte, N.mod_small by lia. rewrite (skipn_app_len (toByte i ib)) by (now rewrite toByte_length).
  rewrite (firstn_app_len R) by auto. fold M. rewrite app_assoc, (skipn_app_len (toByte i ib ++ R)) by (rewrite app_length, toByte_length; lia).
  pose proof (mt_climb_layers p (row_hash r) Hp (p_hash HE mt r Hr) a d M i []) as Hc. rewrite (row_n r (sk_ref r)), (sp_of_row r (sk_ref r)) in Hc.
  specialize (Hc La Ld (sp_d P) 0). rewrite app_nil_r in Hc. change (layer_msg P a d M i 0) with M in Hc. rewrite Hc. cbn [Nat.add].
  change (sp_d P) with (r_d r). replace (r_d r) with (S (r_d r - 1)) by lia. cbn [layer_msg].
  assert (Ht : tree_of P i (r_d r - 1) = 0%N).
  { unfold tree_of. apply N.div_small. replace (r_d r - 1 + 1) with (r_d r) by lia. replace (sp_th P * r_d r) with (r_h r); [exact Hi|]. pose proof (po_h p Hp) as Hh. rewrite row_h, row_dd in Hh. rewrite <- (sp_of_row r (sk_ref r)), (sp_th_of p (row_hash r) Hp). lia. }
  rewrite Ht. destruct (list_eq_dec N.eq_dec _ ct) as [_|Hne]; [reflexivity|]. exfalso. apply Hne. rewrite Hct. unfold mt_root. change (sp_d P) with (r_d r). reflexivity.
Qed.
Lemma pk_parts : pk_root r pk = ct /\ pk_seed r pk = d.
Proof.
  pose proof Hf as [[La [Lb [Lc Ld]]] _]. unfold pk_root, pk_seed, public_key. split.
  - rewrite skipn_app_len by (now rewrite toByte_length). now apply firstn_app_len.
  - rewrite app_assoc. apply skipn_app_len. rewrite app_length, toByte_length. lia.
Qed.
Lemma sm_parts i m : (i < 2 ^ N.of_nat (r_h r))%N -> let sm := mt_sign P a b ct d i m ++ m in let R := PRF P b (toByte i 32) in
  sm_index r sm = i /\ sm_digits r pk sm = wots_digits P (H_msg P R ct i m) /\ sm_wots r sm = low_wots R i m /\ upper_part r sm = upper i.
Proof.
  intros Hi sm R. pose proof (p_ok mt r Hr) as Hp. pose proof (po_ib_le p Hp) as [_ Hibh]. pose proof (pow2_lt_256 _ _ Hibh) as Hp256. rewrite row_h, p_ib in Hp256.
  assert (LR : length R = n) by apply PRF_n. pose proof (mt_sign_len HE mt r Hr a b ct d i m) as L.
  assert (Ex : sm = toByte i ib ++ R ++ concat (low_wots R i m) ++ upper i ++ m) by (unfold sm; rewrite mt_sign_with, sig_shape, <- !app_assoc; reflexivity).
  assert (Ei : sm_index r sm = i).
  { unfold sm_index. rewrite Ex, firstn_app_len by (now rewrite toByte_length). rewrite os2ip_toByte. apply N.mod_small. lia. }
  split; [exact Ei|]. split.
  { unfold sm_digits. rewrite Ei, (proj1 pk_parts). f_equal. f_equal; [|unfold sm; now apply skipn_app_len]. rewrite Ex, skipn_app_len by (now rewrite toByte_length). now apply firstn_app_len. }
  split.
  { unfold sm_wots. rewrite Ex, app_assoc, skipn_app_len by (rewrite app_length, toByte_length; lia). rewrite <- (low_len R i m). apply pieces_of_concat, low_chunked. }
  unfold upper_part, sm. rewrite (firstn_app_len (mt_sign P a b ct d i m)) by (symmetry; exact L). rewrite mt_sign_with, sig_shape. fold R. rewrite !app_assoc, skipn_app_len; [reflexivity|].
  rewrite !app_length, toByte_length, LR, (chunked_length n) by apply low_chunked. rewrite low_len. lia.
Qed.
Lemma forge_is i m1 m2 R m : (i < 2 ^ N.of_nat (r_h r))%N ->
  let sm1 := mt_sign P a b ct d i m1 ++ m1 in let sm2 := mt_sign P a b ct d i m2 ++ m2 in
  can_forge r pk sm1 sm2 R m -> forge r pk sm1 sm2 R m = sig_with R i m ++ m.
Proof.
  intros Hi sm1 sm2 Hc. destruct (sm_parts i m1 Hi) as (I1 & D1 & W1 & U1). destruct (sm_parts i m2 Hi) as (I2 & D2 & W2 & U2). fold sm1 in I1, D1, W1, U1. fold sm2 in I2, D2, W2, U2.
  set (Rh := PRF P b (toByte i 32)) in *. unfold forge, can_forge in *. cbv zeta in *. rewrite I1, (proj1 pk_parts) in *. rewrite (proj2 pk_parts), U1, sig_shape, <- !app_assoc. do 3 f_equal.
  unfold low_wots, wots_sig. f_equal. apply map_ext_in. intros c Hcc. apply in_seq in Hcc. specialize (Hc c ltac:(lia)).
  set (want := wots_digits P (H_msg P R ct i m)) in *.
  assert (Hone : forall mm, nth c (wots_digits P (H_msg P Rh ct i mm)) 0 <= nth c want 0 ->
     chain P d 0 (tree_of P i 0) (leaf_of P i 0) (nth c (low_wots Rh i mm) []) c (nth c (wots_digits P (H_msg P Rh ct i mm)) 0) (nth c want 0 - nth c (wots_digits P (H_msg P Rh ct i mm)) 0) =
     chain P d 0 (tree_of P i 0) (leaf_of P i 0) (wots_sk P d 0 (tree_of P i 0) (leaf_of P i 0) a c) c 0 (nth c want 0)).
  { intros mm Hle. set (x := nth c (wots_digits P (H_msg P Rh ct i mm)) 0) in *. unfold low_wots, wots_sig.
    rewrite (nth_indep _ [] (chain P d 0 (tree_of P i 0) (leaf_of P i 0) (wots_sk P d 0 (tree_of P i 0) (leaf_of P i 0) a 0) 0 0 (nth 0 (wots_digits P (H_msg P Rh ct i mm)) 0))) by (rewrite map_length, seq_length; lia).
    rewrite (map_nth (fun c => chain P d 0 (tree_of P i 0) (leaf_of P i 0) (wots_sk P d 0 (tree_of P i 0) (leaf_of P i 0) a c) c 0 (nth c (wots_digits P (H_msg P Rh ct i mm)) 0))).
    rewrite seq_nth by lia. cbn [Nat.add]. fold x. replace (nth c want 0) with (x + (nth c want 0 - x)) at 2 by lia. rewrite ProofSec.chain_split. reflexivity. }
  rewrite D1, D2, W1, W2 in *. destruct (Nat.leb_spec (nth c (wots_digits P (H_msg P Rh ct i m1)) 0) (nth c want 0)) as [Hle|Hgt]; [now apply Hone|].
  destruct Hc as [Hc|Hc]; [lia|]. now apply Hone.
Qed.
Lemma forge_opens c i m1 m2 R m mbuf mlen : a_core c -> (i < 2 ^ N.of_nat (r_h r))%N -> length R = n ->
  let sm1 := mt_sign P a b ct d i m1 ++ m1 in let sm2 := mt_sign P a b ct d i m2 ++ m2 in
  can_forge r pk sm1 sm2 R m -> length (forge r pk sm1 sm2 R m) <= length mbuf ->
  exists oo, sign_open mt c mbuf mlen (forge r pk sm1 sm2 R m) pk = Ok oo /\ oo_rc oo = 0%Z /\ oo_mlen oo = length m /\ firstn (length m) (oo_m oo) = m.
Proof.
  intros Hc Hi LR sm1 sm2 Hcf Lm. pose proof (forge_is i m1 m2 R m Hi Hcf) as Hfo. change (forge r pk sm1 sm2 R m = sig_with R i m ++ m) in Hfo. rewrite Hfo in Lm |- *. pose proof (sig_with_len R i m LR) as Ls. pose proof (sig_with_verifies R i m LR Hi) as Hv.
  destruct (open_decides_ix HE mt r c mbuf mlen (sig_with R i m ++ m) pk Hr Hc (pk_is_key r a b ct d Hf)) as [oo [Hoo [_ [Hacc _]]]].
  - rewrite app_length. lia.
  - unfold sig_with. rewrite <- app_assoc, firstn_app_len by (now rewrite toByte_length). apply toByte_ok.
  - exact Lm.
  - rewrite (skipn_app_len (sig_with R i m) m), (firstn_app_len (sig_with R i m) m) in Hacc by lia.
    pose proof pk_parts as [Q1 Q2]. unfold pk_root, pk_seed in Q1, Q2. rewrite Q1, Q2 in Hacc. destruct (Hacc Hv) as [A1 [A2 A3]]. exists oo. auto.
Qed.
End Reuse.
