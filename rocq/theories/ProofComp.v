(** Components under every hand-made or standard parameter choice: parameter initialisation,
    hash functions, WOTS+, trees. *)
From Coq Require Import String.
From Verif Require Import Base Lib ModelUtils ModelParams ModelFips202 ModelHash ModelWots ModelCommons ModelCore ModelCoreFast ModelXmss
  SpecRfc SpecFips202 SpecParams SpecComp ProofUtils ProofFipsBasic ProofFips ProofShake ProofHash ProofWots ProofCommons ProofTree ProofCore ProofParams.

(** ** Hash functions *)
Lemma hash_of_total {E : Env} p f : env_ok E -> func p = fn_code f -> fn_ok f (p_n p) -> hash_total p (hash_of f (p_n p)).
Proof.
  intros HE Hf Hn x. destruct (HE x) as [[H2 B2] [H5 B5]].
  unfold core_hash, core_hash_rc. rewrite Hf. unfold hash_of, fn_ok in *.
  destruct f; cbn [fn_code].
  - destruct Hn as [[Hn _]|[Hn|[Hn _]]]; rewrite Hn; cbn [Nat.eqb andb N.eqb XMSS_SHA2 XMSS_SHAKE256 bind].
    + unfold rd. rewrite H2. cbn [Nat.leb Nat.add bind skipn]. split; [reflexivity|]. split; [rewrite firstn_length; lia|now apply bytes_ok_firstn].
    + rewrite (firstn_all2 (sha256 x)) by lia. auto.
    + auto.
  - destruct Hn as [[_ Hx]|[Hn|[_ Hx]]]; [congruence| |congruence]. rewrite Hn. cbn [Nat.eqb andb N.eqb XMSS_SHA2 XMSS_SHAKE256 XMSS_SHAKE128 Pos.eqb].
    destruct (shake_b2h _ _ 32 (shake128_fips 32 x)) as [-> [Hl Hb]]. cbn [bind]. auto.
  - destruct Hn as [[Hn _]|[Hn|[Hn _]]]; rewrite Hn; cbn [Nat.eqb andb N.eqb XMSS_SHA2 XMSS_SHAKE256 XMSS_SHAKE128 Pos.eqb].
    + destruct (shake_b2h _ _ 24 (shake256_fips 24 x)) as [-> [Hl Hb]]. cbn [bind]. auto.
    + destruct (shake_b2h _ _ 32 (shake256_fips 32 x)) as [-> [Hl Hb]]. cbn [bind]. auto.
    + destruct (shake_b2h _ _ 64 (shake256_fips 64 x)) as [-> [Hl Hb]]. cbn [bind]. auto.
Qed.

(** ** Initialisation *)
Lemma u32_id x : (x < 2 ^ 32)%N -> u32 x = x.
Proof. intros H. unfold u32. now apply N.mod_small. Qed.
Lemma u64_id x : (x < 2 ^ 64)%N -> u64 x = x.
Proof. intros H. unfold u64. now apply N.mod_small. Qed.

Section Init.
Variables (c : custom).
Hypothesis Hc : custom_ok c.
Notation P := (custom_sp (E := {| sha256 := fun _ => []; sha512 := fun _ => []; junk := fun _ => 0%N |}) c).
Notation len1 := (sp_len1 P).
Notation len2 := (sp_len2 P).

Lemma c_n : cu_n c = 24 \/ cu_n c = 32 \/ cu_n c = 64.
Proof. destruct Hc as [[[H _]|[H|[H _]]] _]; auto. Qed.
Lemma c_lgw : cu_lgw c = 2 \/ cu_lgw c = 4 \/ cu_lgw c = 8.
Proof. apply Hc. Qed.
Lemma c_len1 : len1 * cu_lgw c = 8 * cu_n c.
Proof.
  unfold sp_len1. cbn [custom_sp sp_n sp_lgw].
  destruct c_n as [->| [->| ->]]; destruct c_lgw as [->| [->| ->]]; reflexivity.
Qed.
Lemma c_len2 : len2 = if cu_lgw c =? 2 then 5 else if cu_lgw c =? 4 then 3 else 2.
Proof.
  unfold sp_len2, sp_len1, sp_w. cbn [custom_sp sp_n sp_lgw].
  destruct c_n as [->| [->| ->]]; destruct c_lgw as [->| [->| ->]]; vm_compute; reflexivity.
Qed.
Lemma c_len1_le : 24 <= len1 <= 256.
Proof.
  unfold sp_len1. cbn [custom_sp sp_n sp_lgw].
  destruct c_n as [->| [->| ->]]; destruct c_lgw as [->| [->| ->]]; cbn; lia.
Qed.
Lemma c_len2_le : 2 <= len2 <= 5.
Proof. rewrite c_len2. destruct c_lgw as [->| [->| ->]]; cbn; lia. Qed.

Lemma c_ib : sp_ib P <= 8.
Proof.
  unfold sp_ib. cbn [custom_sp sp_d sp_h]. destruct (cu_d c =? 1); [lia|].
  destruct Hc as [_ [_ [_ [_ [_ [_ H]]]]]]. apply Nat.lt_succ_r, Nat.div_lt_upper_bound; lia.
Qed.

Definition cp (k skb : N) : xmss_params :=
  mkParams (fn_code (cu_fn c)) (N.of_nat (cu_n c)) (N.of_nat (cu_pad c)) (N.of_nat (2 ^ cu_lgw c)) (N.of_nat (cu_lgw c))
    (N.of_nat len1) (N.of_nat len2) (N.of_nat (len1 + len2)) (N.of_nat ((len1 + len2) * cu_n c)) (N.of_nat (cu_h c)) (N.of_nat (cu_h c / cu_d c))
    (N.of_nat (cu_d c)) (N.of_nat (sp_ib P)) (N.of_nat (sp_ib P + cu_n c + cu_d c * ((len1 + len2) * cu_n c) + cu_h c * cu_n c))
    (N.of_nat (2 * cu_n c)) skb k.

Lemma c_d : 1 <= cu_d c < 64.
Proof. destruct Hc as [_ [_ [_ [H1 [H2 [H3 H4]]]]]]. split; [exact H1|]. set (q := cu_h c / cu_d c) in *. nia. Qed.
Lemma c_sig_lt : (N.of_nat (sp_ib P + cu_n c + cu_d c * ((len1 + len2) * cu_n c) + cu_h c * cu_n c) < 2 ^ 32)%N.
Proof.
  pose proof c_d. pose proof c_ib. pose proof c_len1_le. pose proof c_len2_le.
  assert (cu_n c <= 64) by (destruct c_n as [->| [->| ->]]; lia).
  destruct Hc as [_ [_ [_ [_ [_ [_ Hh]]]]]].
  set (l1 := len1) in *. set (l2 := len2) in *. set (ib := sp_ib P) in *. clearbody l1 l2 ib.
  rewrite !Nat2N.inj_add, !Nat2N.inj_mul, Nat2N.inj_add.
  assert (A1 : ((N.of_nat l1 + N.of_nat l2) * N.of_nat (cu_n c) <= 261 * 64)%N) by (apply N.mul_le_mono; lia).
  assert (A2 : (N.of_nat (cu_d c) * ((N.of_nat l1 + N.of_nat l2) * N.of_nat (cu_n c)) <= 64 * (261 * 64))%N) by (apply N.mul_le_mono; lia).
  assert (A3 : (N.of_nat (cu_h c) * N.of_nat (cu_n c) <= 64 * 64)%N) by (apply N.mul_le_mono; lia).
  lia.
Qed.

Lemma c_wots : (if (N.of_nat (2 ^ cu_lgw c) =? 4)%N then Some (2, 5)%N else if (N.of_nat (2 ^ cu_lgw c) =? 16)%N then Some (4, 3)%N
   else if (N.of_nat (2 ^ cu_lgw c) =? 256)%N then Some (8, 2)%N else None) = Some (N.of_nat (cu_lgw c), N.of_nat len2).
Proof. rewrite c_len2. destruct c_lgw as [->| [->| ->]]; reflexivity. Qed.

Lemma init_cp csk p0 : inputs c p0 ->
  xmss_xmssmt_initialize_params csk p0 = Ok (0%Z, cp (f_bds_k p0) (u64 (csk (cp (f_bds_k p0) (f_sk_bytes p0))))).
Proof.
  intros [H1 [H2 [H3 [H4 [H5 H6]]]]]. unfold xmss_xmssmt_initialize_params. rewrite H1, H2, H3, H4, H5, H6.
  pose proof c_d as Hd. pose proof c_sig_lt as Hsig. pose proof c_ib as Hib. pose proof c_len1 as Hl1. pose proof c_len1_le. pose proof c_len2_le.
  assert (Hn : cu_n c <= 64) by (destruct c_n as [->| [->| ->]]; lia).
  assert (Hlg : 0 < cu_lgw c) by (destruct c_lgw as [->| [->| ->]]; lia).
  destruct (N.eqb_spec (N.of_nat (cu_d c)) 0) as [Hz|Hz]; [lia|]. rewrite c_wots.
  destruct Hc as [_ [_ [_ [_ [_ [_ Hh]]]]]].
  assert (E1 : (u32 (8 * N.of_nat (cu_n c)) / N.of_nat (cu_lgw c) = N.of_nat len1)%N).
  { rewrite u32_id by lia. symmetry. apply (N.div_unique _ _ _ 0); lia. }
  assert (Hsum : (N.of_nat (len1 + len2) * N.of_nat (cu_n c) <= 261 * 64)%N) by (apply N.mul_le_mono; lia).
  assert (E2 : u32 (N.of_nat len1 + N.of_nat len2) = N.of_nat (len1 + len2)) by (rewrite u32_id; lia).
  assert (E3 : u32 (N.of_nat (len1 + len2) * N.of_nat (cu_n c)) = N.of_nat ((len1 + len2) * cu_n c)).
  { rewrite Nat2N.inj_mul. apply u32_id. lia. }
  assert (E4 : (if (N.of_nat (cu_d c) =? 1)%N then 4%N else (u32 (N.of_nat (cu_h c) + 7) / 8)%N) = N.of_nat (sp_ib P)).
  { unfold sp_ib. cbn [custom_sp sp_d sp_h]. destruct (N.eqb_spec (N.of_nat (cu_d c)) 1) as [He|He], (Nat.eqb_spec (cu_d c) 1) as [Hf|Hf]; try lia.
    rewrite u32_id by lia. change 7%N with (N.of_nat 7). change 8%N with (N.of_nat 8). rewrite <- Nat2N.inj_add, <- Nat2N.inj_div. reflexivity. }
  assert (E5 : u32 (N.of_nat (sp_ib P) + N.of_nat (cu_n c) + N.of_nat (cu_d c) * N.of_nat ((len1 + len2) * cu_n c) + N.of_nat (cu_h c) * N.of_nat (cu_n c))
     = N.of_nat (sp_ib P + cu_n c + cu_d c * ((len1 + len2) * cu_n c) + cu_h c * cu_n c)).
  { rewrite <- !Nat2N.inj_mul, <- !Nat2N.inj_add. apply u32_id. exact Hsig. }
  assert (E6 : u32 (2 * N.of_nat (cu_n c)) = N.of_nat (2 * cu_n c)) by (rewrite u32_id; lia).
  assert (E7 : (N.of_nat (cu_h c) / N.of_nat (cu_d c))%N = N.of_nat (cu_h c / cu_d c)) by (now rewrite Nat2N.inj_div).
  cbv zeta. rewrite E1, E2, E3, E4, E5, E6, E7. reflexivity.
Qed.

Lemma cp_ok k skb : (N.of_nat (sp_ib P) + 4 * N.of_nat (cu_n c) <= skb)%N -> params_ok (cp k skb).
Proof.
  intros Hs. pose proof c_d as Hd. pose proof c_len1_le. pose proof c_len2_le.
  assert (Hsp : sp_of (cp k skb) (fun x => x) = mkSp (cu_n c) (cu_lgw c) (cu_pad c) (cu_h c) (cu_d c) (fun x => x)).
  { unfold sp_of, p_n, wots_log_w, padding_len, full_height, p_d, cp. cbn [f_n f_wots_log_w f_padding_len f_full_height f_d]. now rewrite !Nat2N.id. }
  assert (Hn : p_n (cp k skb) = cu_n c) by apply Nat2N.id.
  destruct Hc as [Hf [Hl [Hp [_ [Hh [Ht Hh64]]]]]].
  constructor.
  - unfold hash_supported. rewrite Hn. change (func (cp k skb)) with (fn_code (cu_fn c)).
    destruct Hf as [[-> Hx]|[->|[-> Hx]]]; destruct (cu_fn c); try congruence; cbn; tauto.
  - change (wots_log_w (cp k skb)) with (N.to_nat (N.of_nat (cu_lgw c))). now rewrite Nat2N.id.
  - change (wots_log_w (cp k skb)) with (N.to_nat (N.of_nat (cu_lgw c))). change (wots_w (cp k skb)) with (N.to_nat (N.of_nat (2 ^ cu_lgw c))). now rewrite !Nat2N.id.
  - rewrite Hsp. apply Nat2N.id.
  - rewrite Hsp. apply Nat2N.id.
  - unfold wots_len, wots_len1, wots_len2, cp. cbn [f_wots_len f_wots_len1 f_wots_len2]. now rewrite !Nat2N.id.
  - rewrite Hn. unfold wots_sig_bytes, wots_len, cp. cbn [f_wots_len f_wots_sig_bytes]. rewrite !Nat2N.id. reflexivity.
  - change (p_d (cp k skb)) with (N.to_nat (N.of_nat (cu_d c))). rewrite Nat2N.id. lia.
  - change (tree_height (cp k skb)) with (N.to_nat (N.of_nat (cu_h c / cu_d c))). now rewrite Nat2N.id.
  - unfold full_height, p_d, tree_height, cp. cbn [f_full_height f_d f_tree_height]. now rewrite !Nat2N.id.
  - change (full_height (cp k skb)) with (N.to_nat (N.of_nat (cu_h c))). now rewrite Nat2N.id.
  - rewrite Hsp. apply Nat2N.id.
  - rewrite Hn. unfold sig_bytes, index_bytes, p_d, wots_sig_bytes, full_height, cp. cbn [f_sig_bytes f_index_bytes f_d f_wots_sig_bytes f_full_height].
    rewrite !Nat2N.id. reflexivity.
  - rewrite Hn. unfold sig_bytes, index_bytes, padding_len, cp. cbn [f_sig_bytes f_index_bytes f_padding_len]. rewrite !Nat2N.id.
    assert (4 * cu_n c <= cu_d c * ((len1 + len2) * cu_n c)). { rewrite Nat.mul_assoc. apply Nat.mul_le_mono_r. set (x := len1 + len2) in *. nia. }
    lia.
  - rewrite Hn. unfold pk_bytes, cp. cbn [f_pk_bytes]. rewrite Nat2N.id. reflexivity.
  - rewrite Hn. unfold index_bytes, ModelParams.sk_bytes, cp. cbn [f_index_bytes f_sk_bytes]. rewrite Nat2N.id. lia.
Qed.
Lemma cp_sp {E : Env} k skb : sp_of (cp k skb) (hash_of (cu_fn c) (cu_n c)) = custom_sp c.
Proof. unfold sp_of, p_n, wots_log_w, padding_len, full_height, p_d, cp. cbn [f_n f_wots_log_w f_padding_len f_full_height f_d]. now rewrite !Nat2N.id. Qed.
Lemma cp_hash {E : Env} k skb : env_ok E -> hash_total (cp k skb) (hash_of (cu_fn c) (cu_n c)).
Proof.
  intros HE. assert (Hn : p_n (cp k skb) = cu_n c) by apply Nat2N.id. rewrite <- Hn. apply hash_of_total; [exact HE|reflexivity|].
  rewrite Hn. apply Hc.
Qed.

Lemma cp_ref_sk k s : u64 (ref_core_sk_bytes (cp k s)) = (N.of_nat (sp_ib P) + 4 * N.of_nat (cu_n c))%N.
Proof.
  pose proof c_ib. assert (Hn : cu_n c <= 64) by (destruct c_n as [->| [->| ->]]; lia).
  unfold ref_core_sk_bytes, cp. cbn [f_index_bytes f_n]. rewrite u32_id by lia. apply u64_id. lia.
Qed.
Lemma cp_fast_sk k s : (k <= N.of_nat (cu_h c / cu_d c))%N -> (fast_sk_size P (N.to_nat k) < 2 ^ 32)%N ->
  u64 (fast_core_sk_bytes (cp k s)) = fast_sk_size P (N.to_nat k).
Proof.
  intros Hk Hlt. pose proof c_d as Hd. pose proof c_len1_le. pose proof c_len2_le. destruct Hc as [_ [_ [_ [_ [_ [Ht _]]]]]].
  unfold fast_core_sk_bytes, cp. cbn [f_index_bytes f_n f_d f_tree_height f_bds_k f_wots_sig_bytes].
  unfold fast_sk_size in *. unfold sp_th, sp_len in *. cbn [custom_sp sp_n sp_h sp_d] in *. set (th := cu_h c / cu_d c) in *. rewrite N2Nat.id in *.
  assert (E1 : u32 (2 * N.of_nat (cu_d c) + (2 ^ 32 - 1)) = (2 * N.of_nat (cu_d c) - 1)%N).
  { replace (2 * N.of_nat (cu_d c) + (2 ^ 32 - 1))%N with ((2 * N.of_nat (cu_d c) - 1) + 1 * 2 ^ 32)%N by lia. unfold u32. rewrite N.mod_add by lia. apply N.mod_small. lia. }
  assert (E2 : u32 (N.of_nat (cu_d c) + (2 ^ 32 - 1)) = (N.of_nat (cu_d c) - 1)%N).
  { replace (N.of_nat (cu_d c) + (2 ^ 32 - 1))%N with ((N.of_nat (cu_d c) - 1) + 1 * 2 ^ 32)%N by lia. unfold u32. rewrite N.mod_add by lia. apply N.mod_small. lia. }
  assert (E3 : u32 (N.of_nat th + (2 ^ 32 - k)) = (N.of_nat th - k)%N).
  { replace (N.of_nat th + (2 ^ 32 - k))%N with ((N.of_nat th - k) + 1 * 2 ^ 32)%N by lia. unfold u32. rewrite N.mod_add by lia. apply N.mod_small. lia. }
  assert (E4 : u32 (2 ^ k + (2 ^ 32 - k) + (2 ^ 32 - 1)) = (2 ^ k - k - 1)%N).
  { assert (k < 2 ^ k)%N by (apply N.pow_gt_lin_r; lia). assert (2 ^ k <= 2 ^ 30)%N by (apply N.pow_le_mono_r; lia).
    replace (2 ^ k + (2 ^ 32 - k) + (2 ^ 32 - 1))%N with ((2 ^ k - k - 1) + 2 * 2 ^ 32)%N by lia. unfold u32. rewrite N.mod_add by lia. apply N.mod_small. lia. }
  assert (E5 : (N.shiftr (N.of_nat th) 1 = N.of_nat th / 2)%N) by (now rewrite N.shiftr_div_pow2).
  rewrite E1, E2, E3, E4, E5, Nat2N.inj_mul.
  match goal with |- u64 (u32 ?x) = ?y => replace x with y end.
  - rewrite u32_id by exact Hlt. apply u64_id. lia.
  - ring.
Qed.
End Init.

Section Conf.
Context {E : Env}.
Variables (c : custom) (p : xmss_params).
Hypothesis HE : env_ok E.
Hypothesis Hc : custom_ok c.
Hypothesis Hp : configured c p.
Notation P := (custom_sp c).
Lemma fast_sk_small : (fast_sk_size P 0 < 2 ^ 32)%N.
Proof.
  destruct (c_d c Hc) as [Hd1 Hd2]. pose proof (c_len1_le c Hc) as H1. pose proof (c_len2_le c Hc) as H2. pose proof (c_ib c Hc) as H3.
  assert (Hn : cu_n c <= 64) by (destruct (c_n c Hc) as [->| [->| ->]]; lia).
  destruct Hc as [_ [_ [_ [_ [_ [[_ Ht] _]]]]]].
  unfold fast_sk_size, sp_th, sp_len. 
  change (sp_ib P) with (sp_ib (custom_sp (E := {| sha256 := fun _ => []; sha512 := fun _ => []; junk := fun _ => 0%N |}) c)).
  change (sp_len1 P) with (sp_len1 (custom_sp (E := {| sha256 := fun _ => []; sha512 := fun _ => []; junk := fun _ => 0%N |}) c)).
  change (sp_len2 P) with (sp_len2 (custom_sp (E := {| sha256 := fun _ => []; sha512 := fun _ => []; junk := fun _ => 0%N |}) c)).
  cbn [custom_sp sp_n sp_h sp_d].
  set (th := cu_h c / cu_d c) in *. set (ib := sp_ib _) in *. set (l1 := sp_len1 _) in *. set (l2 := sp_len2 _) in *. clearbody th ib l1 l2.
  change (N.of_nat 0) with 0%N. rewrite N.sub_0_r. change (2 ^ 0 - 0 - 1)%N with 0%N. rewrite N.mul_0_l.
  set (n := N.of_nat (cu_n c)) in *. assert (n <= 64)%N by lia. set (t := N.of_nat th) in *. assert (t <= 30)%N by lia.
  assert (t / 2 <= 15)%N. { apply N.lt_succ_r, N.div_lt_upper_bound; lia. }
  set (t2 := (t / 2)%N) in *. clearbody t2.
  assert (A1 : ((t + 1) * n <= 31 * 64)%N) by (apply N.mul_le_mono; lia).
  assert (A2 : (t * n <= 30 * 64)%N) by (apply N.mul_le_mono; lia).
  assert (A3 : (t2 * n <= 15 * 64)%N) by (apply N.mul_le_mono; lia).
  assert (A4 : (t * (7 + n) <= 30 * 71)%N) by (apply N.mul_le_mono; lia).
  set (B := ((t + 1) * n + 4 + (t + 1) + t * n + t2 * n + t * (7 + n) + 0 + 4)%N) in *.
  assert (HB : (B <= 8000)%N) by (unfold B; lia). clearbody B.
  assert (A5 : ((2 * N.of_nat (cu_d c) - 1) * B <= 128 * 8000)%N) by (apply N.mul_le_mono; lia).
  assert (A6 : (N.of_nat (l1 + l2) * n <= 300 * 64)%N) by (apply N.mul_le_mono; lia).
  assert (A7 : ((N.of_nat (cu_d c) - 1) * (N.of_nat (l1 + l2) * n) <= 64 * (300 * 64))%N) by (apply N.mul_le_mono; lia).
  lia.
Qed.
Lemma conf_ok : params_ok p /\ hash_total p (hash_of (cu_fn c) (cu_n c)) /\ sp_of p (hash_of (cu_fn c) (cu_n c)) = P /\ p_n p = cu_n c.
Proof.
  destruct Hp as [p0 [Hi [Hr|[Hk Hr]]]].
  - rewrite (init_cp c Hc _ p0 Hi) in Hr. injection Hr as <-. split; [|split; [|split]].
    + apply cp_ok; [exact Hc|]. rewrite (cp_ref_sk c Hc). lia.
    + now apply cp_hash.
    + apply cp_sp.
    + apply Nat2N.id.
  - rewrite (init_cp c Hc _ p0 Hi) in Hr. injection Hr as <-. rewrite Hk. split; [|split; [|split]].
    + apply cp_ok; [exact Hc|]. rewrite (cp_fast_sk c Hc); [|apply N.le_0_l|exact fast_sk_small]. unfold fast_sk_size. 
      change (sp_ib (custom_sp (E := {| sha256 := fun _ => []; sha512 := fun _ => []; junk := fun _ => 0%N |}) c)) with (sp_ib P).
      cbn [custom_sp sp_n]. set (ib := sp_ib P). rewrite <- !N.add_assoc. apply N.add_le_mono_l. apply N.le_add_r.
    + now apply cp_hash.
    + apply cp_sp.
    + apply Nat2N.id.
Qed.
End Conf.
