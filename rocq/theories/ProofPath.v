(** Accepted signatures with the same index show the same authentication path, or their
    verifications exhibit a collision. *)
From Verif Require Import Base Lib ModelUtils ModelParams ModelCore ModelCommons ModelXmss SpecRfc SpecParams SpecApi SpecComp SpecSec SpecTools
  ProofUtils ProofHash ProofWots ProofParams ProofApi ProofMain ProofComp ProofSec ProofSec2.

Section Path.
Variable P : sparams.
Hypothesis Hn : forall x, length (sp_hash P x) = sp_n P /\ bytes_ok (sp_hash P x).
Hypothesis Hlen : 1 <= sp_len P.
Variable seed : bytes.
Notation n := (sp_n P).
Notation coll := (collision P seed).
Notation sz := ((sp_len P + sp_th P) * sp_n P).

Lemma layer_path_binding rt sig1 sig2 m1 m2 k : k < sp_d P -> length sig1 = sp_sig_bytes P -> length sig2 = sp_sig_bytes P ->
  sig_index P sig1 = sig_index P sig2 -> signed_at P seed rt sig1 m1 (S k) = signed_at P seed rt sig2 m2 (S k) ->
  layer_auth P sig1 k = layer_auth P sig2 k \/
  collision P seed (verify_queries P seed rt sig1 m1) (verify_queries P seed rt sig2 m2).
Proof.
  intros Hk L1 L2 Hi. unfold signed_at. rewrite !(mt_climb_snoc P Hn Hlen seed). cbn [Nat.add].
  set (M1 := H_msg P (sig_R P sig1) rt (sig_index P sig1) m1). set (M2 := H_msg P (sig_R P sig2) rt (sig_index P sig2) m2).
  assert (I1 := layer_queries_in P Hn Hlen seed (sig_index P sig1) (sp_d P) M1 0 (sig_layers P sig1) k Hk).
  assert (I2 := layer_queries_in P Hn Hlen seed (sig_index P sig2) (sp_d P) M2 0 (sig_layers P sig2) k Hk).
  cbn [Nat.add] in I1, I2. rewrite Hi in I1 |- *.
  assert (Hsz : k * sz + sz <= sp_d P * sz) by (replace (k * sz + sz) with ((k + 1) * sz) by lia; apply Nat.mul_le_mono_r; lia).
  assert (Hsz2 : sp_len P * sp_n P + sp_th P * sp_n P = sz) by lia.
  unfold sp_sig_bytes in L1, L2. rewrite <- Nat.add_assoc in L1, L2.
  unfold layer_auth. change (skipn (sp_ib P + sp_n P) sig1) with (sig_layers P sig1). change (skipn (sp_ib P + sp_n P) sig2) with (sig_layers P sig2).
  assert (K1 : sz <= length (skipn (k * sz) (sig_layers P sig1))) by (unfold sig_layers; rewrite !skipn_length; lia).
  assert (K2 : sz <= length (skipn (k * sz) (sig_layers P sig2))) by (unfold sig_layers; rewrite !skipn_length; lia).
  set (s1 := skipn (k * sz) (sig_layers P sig1)) in *. set (s2 := skipn (k * sz) (sig_layers P sig2)) in *.
  unfold rootFromSig, root_queries in *. cbv zeta in I1, I2.
  intros HC.
  destruct (pieces_n P Hn (sp_len P) s1) as [F1 Z1]; [lia|]. destruct (pieces_n P Hn (sp_len P) s2) as [F2 Z2]; [lia|].
  destruct (pieces_n P Hn (sp_th P) (skipn (sp_len P * sp_n P) s1)) as [G1 A1]; [rewrite skipn_length; lia|].
  destruct (pieces_n P Hn (sp_th P) (skipn (sp_len P * sp_n P) s2)) as [G2 A2]; [rewrite skipn_length; lia|].
  match type of HC with climb _ _ _ _ (ltree _ _ _ _ _ _ _ ?x) _ _ _ = climb _ _ _ _ (ltree _ _ _ _ _ _ _ ?y) _ _ _ => set (pk1 := x) in *; set (pk2 := y) in * end.
  assert (Q1 : Forall (fun x => length x = sp_n P) pk1 /\ length pk1 = sp_len P) by (apply (pk_n P Hn); assumption).
  assert (Q2 : Forall (fun x => length x = sp_n P) pk2 /\ length pk2 = sp_len P) by (apply (pk_n P Hn); assumption).
  destruct Q1 as [Q1 Q1']. destruct Q2 as [Q2 Q2'].
  unfold verify_queries. rewrite Hi.
  apply (climb_bind_path P Hn) in HC; [|congruence|assumption|assumption|apply (ltree_n P Hn); [lia|assumption]|apply (ltree_n P Hn); [lia|assumption]].
  destruct HC as [[_ HC]|HC].
  - left. apply (f_equal (@concat N)) in HC. rewrite !(pieces_concat P Hn) in HC by (rewrite skipn_length; lia). exact HC.
  - right. revert HC. apply coll_mono.
    + intros q Hq. right. unfold M1 in I1. rewrite Hi in I1. apply I1. apply in_app_iff. right. apply in_app_iff. now right.
    + intros q Hq. right. apply I2. apply in_app_iff. right. apply in_app_iff. now right.
Qed.
End Path.

Lemma accepted_paths {E : Env} (HE : env_ok E) mt r c1 c2 mb1 mb2 l1 l2 sm1 sm2 pk o1 o2 : In r (rows mt) -> a_core c1 -> a_core c2 -> key_of r (pk_size r) pk ->
  sig_size r <= length sm1 -> sig_size r <= length sm2 -> bytes_ok sm1 -> bytes_ok sm2 -> length sm1 <= length mb1 -> length sm2 <= length mb2 ->
  sign_open mt c1 mb1 l1 sm1 pk = Ok o1 -> oo_rc o1 = 0%Z -> sign_open mt c2 mb2 l2 sm2 pk = Ok o2 -> oo_rc o2 = 0%Z ->
  sm_index r sm1 = sm_index r sm2 ->
  let P := row_sp r in
  let rt := firstn (r_n r) (skipn 4 pk) in let seed := skipn (4 + r_n r) pk in
  let sig1 := firstn (sig_size r) sm1 in let m1 := skipn (sig_size r) sm1 in
  let sig2 := firstn (sig_size r) sm2 in let m2 := skipn (sig_size r) sm2 in
  (layer_auth P sig1 (r_d r - 1) = layer_auth P sig2 (r_d r - 1) \/
   collision P seed (verify_queries P seed rt sig1 m1) (verify_queries P seed rt sig2 m2)) /\
  (forall k, S k < r_d r -> signed_at P seed rt sig1 m1 (S k) = signed_at P seed rt sig2 m2 (S k) ->
   layer_auth P sig1 k = layer_auth P sig2 k \/
   collision P seed (verify_queries P seed rt sig1 m1) (verify_queries P seed rt sig2 m2)).
Proof.
  intros Hr Hc1 Hc2 Hk L1 L2 B1 B2 G1 G2 O1 R1 O2 R2 Hi P rt seed sig1 m1 sig2 m2.
  pose proof (rows_custom_ok mt r Hr) as Hcu.
  assert (Hs : idx_size r <= sig_size r) by (unfold sig_size, sp_sig_bytes, idx_size; lia).
  assert (Hb : forall k, k < r_d r -> signed_at P seed rt sig1 m1 (S k) = signed_at P seed rt sig2 m2 (S k) ->
   layer_auth P sig1 k = layer_auth P sig2 k \/
   collision P seed (verify_queries P seed rt sig1 m1) (verify_queries P seed rt sig2 m2)).
  { intros k Hkd. apply layer_path_binding.
    - exact (c_hash_n HE (row_custom r) Hcu).
    - exact (c_len (row_custom r) Hcu).
    - exact Hkd.
    - unfold sig1. rewrite firstn_length. unfold sig_size in *. unfold P. lia.
    - unfold sig2. rewrite firstn_length. unfold sig_size in *. unfold P. lia.
    - unfold sig_index, sig1, sig2. rewrite !firstn_firstn. fold (idx_size r). unfold P. rewrite Nat.min_l by exact Hs. exact Hi. }
  assert (Hd : 1 <= r_d r) by exact (proj1 (proj2 (proj2 (proj2 Hcu)))).
  split; [|intros k Hkd; apply Hb; lia]. apply Hb; [lia|]. replace (S (r_d r - 1)) with (r_d r) by lia.
  pose proof (accepted HE mt r Hr c1 mb1 l1 sm1 pk o1 Hc1 Hk L1 B1 G1 O1 R1) as V1.
  pose proof (accepted HE mt r Hr c2 mb2 l2 sm2 pk o2 Hc2 Hk L2 B2 G2 O2 R2) as V2.
  unfold mt_verify in V1, V2. cbv zeta in V1, V2.
  destruct (list_eq_dec N.eq_dec _ _) as [W1|] in V1; [|discriminate]. destruct (list_eq_dec N.eq_dec _ _) as [W2|] in V2; [|discriminate].
  transitivity rt; [exact W1|symmetry; exact W2].
Qed.
