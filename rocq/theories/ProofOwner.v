From Verif Require Import Base Lib ModelUtils ModelParams ModelHash ModelWots ModelCommons ModelCore ModelXmss SpecRfc SpecParams SpecApi SpecComp SpecSec SpecFast SpecForge SpecOwner
  ProofUtils ProofHash ProofCore ProofParams ProofApi ProofMain ProofComp ProofComp2 ProofSec ProofSec2 ProofForge ProofForge2 ProofBoth ProofUi2.

Lemma rows_shape mt1 mt2 r1 r2 : In r1 (rows mt1) -> In r2 (rows mt2) -> r_fn r1 = r_fn r2 -> r_n r1 = r_n r2 -> r_h r1 / r_d r1 = r_h r2 / r_d r2 -> r_d r1 = r_d r2 -> r1 = r2.
Proof.
  intros H1 H2. assert (Hin : forall mt r, In r (rows mt) -> In r (xmss_rows ++ mt_rows)) by (intros [] r Hr; apply in_app_iff; [now right|now left]).
  apply Hin in H1, H2. revert r1 H1 r2 H2. clear Hin.
  assert (Hall : forallb (fun r1 => forallb (fun r2 =>
     if (match r_fn r1, r_fn r2 with SHA2, SHA2 | SHAKE_128, SHAKE_128 | SHAKE_256, SHAKE_256 => true | _, _ => false end && (r_n r1 =? r_n r2) && (r_h r1 / r_d r1 =? r_h r2 / r_d r2) && (r_d r1 =? r_d r2))%bool
     then (Bool.eqb (r_mt r1) (r_mt r2) && (r_oid r1 =? r_oid r2)%N && String.eqb (r_tag r1) (r_tag r2) && (r_h r1 =? r_h r2))%bool else true) (xmss_rows ++ mt_rows)) (xmss_rows ++ mt_rows) = true) by (vm_compute; reflexivity).
  intros r1 H1 r2 H2 Hf Hn Ht Hd. rewrite forallb_forall in Hall. specialize (Hall r1 H1). rewrite forallb_forall in Hall. specialize (Hall r2 H2).
  rewrite Hf, Hn, Ht, Hd, !Nat.eqb_refl in Hall. replace (match r_fn r2, r_fn r2 with SHA2, SHA2 | SHAKE_128, SHAKE_128 | SHAKE_256, SHAKE_256 => true | _, _ => false end) with true in Hall by (now destruct (r_fn r2)).
  cbn [andb] in Hall. apply andb_prop in Hall. destruct Hall as [Hall H4]. apply andb_prop in Hall. destruct Hall as [Hall H3]. apply andb_prop in Hall. destruct Hall as [H1' H2'].
  apply Bool.eqb_prop in H1'. apply N.eqb_eq in H2'. apply String.eqb_eq in H3. apply Nat.eqb_eq in H4. destruct r1, r2. cbn in *. congruence.
Qed.

Section Two.
Context {E : Env}.
Hypothesis HE : env_ok E.
Variables (mt1 mt2 : bool) (r1 r2 : row).
Hypothesis Hr1 : In r1 (rows mt1).
Hypothesis Hr2 : In r2 (rows mt2).
Hypothesis Hfn : r_fn r1 = r_fn r2.
Hypothesis Hnn : r_n r1 = r_n r2.
Notation P1 := (row_sp r1).
Notation P2 := (row_sp r2).

Lemma same_hash : sp_hash P1 = sp_hash P2.
Proof. cbn [row_sp sp_hash]. unfold row_hash. now rewrite Hfn, Hnn. Qed.
Lemma same_pad : sp_pad P1 = sp_pad P2.
Proof. cbn [row_sp sp_pad]. now rewrite Hnn. Qed.
Lemma pad_pos : 1 <= sp_pad P1.
Proof. cbn [row_sp sp_pad]. destruct (Nat.eqb_spec (r_n r1) 24); [lia|]. destruct (c_n (row_custom r1) (rows_custom_ok mt1 r1 Hr1)) as [Hx|[Hx|Hx]]; cbn [row_custom cu_n] in Hx; lia. Qed.
Lemma row_hash_n x : length (sp_hash P1 x) = r_n r1.
Proof. exact (proj1 (c_hash_n HE (row_custom r1) (rows_custom_ok mt1 r1 Hr1) x)). Qed.
Lemma row_hash_n2 x : length (sp_hash P2 x) = r_n r1.
Proof. rewrite Hnn. exact (proj1 (c_hash_n HE (row_custom r2) (rows_custom_ok mt2 r2 Hr2) x)). Qed.
Lemma hashed_same ro k m : hashed P2 ro k m = hashed P1 ro k m.
Proof. unfold hashed. now rewrite same_pad. Qed.

(** one node under each seed, with the same hash *)
Lemma nodes_apart s1 s2 a1 a2 x1 x2 : length s1 = r_n r1 -> length s2 = r_n r1 -> adrs_ok a1 -> adrs_ok a2 ->
  answer P1 s1 (Qnode a1 x1) = answer P2 s2 (Qnode a2 x2) ->
  s1 = s2 /\ a1 = a2 \/ strings_collide (sp_hash P1) (hash_inputs P1 s1 (Qnode a1 x1)) (hash_inputs P2 s2 (Qnode a2 x2)).
Proof.
  intros L1 L2 A1 A2 Ha. cbn [answer] in Ha. unfold H in Ha. rewrite <- same_hash, <- same_pad in Ha.
  set (k1 := PRF P1 s1 (adrs_bytes a1)) in *. set (k2 := PRF P2 s2 (adrs_bytes a2)) in *.
  assert (Lk1 : length k1 = r_n r1) by apply row_hash_n. assert (Lk2 : length k2 = r_n r1) by apply row_hash_n2.
  destruct (list_eq_dec N.eq_dec (hashed P1 RoleH k1 x1) (hashed P1 RoleH k2 x2)) as [He|Hne].
  - apply (hashed_separated P1 RoleH RoleH) in He; [|exact pad_pos|exact Lk1|exact Lk2]. destruct He as (_ & Hk & _).
    destruct (list_eq_dec N.eq_dec (hashed P1 RolePrf s1 (adrs_bytes a1)) (hashed P1 RolePrf s2 (adrs_bytes a2))) as [He|Hne].
    + apply (hashed_separated P1 RolePrf RolePrf) in He; [|exact pad_pos|exact L1|exact L2]. destruct He as (_ & Hs & Hb). left. split; [exact Hs|]. now apply adrs_inj.
    + right. exists (hashed P1 RolePrf s1 (adrs_bytes a1)), (hashed P1 RolePrf s2 (adrs_bytes a2)).
      split; [now left|]. split; [left; apply hashed_same|]. split; [exact Hne|]. unfold k1, k2, PRF in Hk. rewrite <- same_hash, <- same_pad in Hk. exact Hk.
  - right. exists (hashed P1 RoleH k1 x1), (hashed P1 RoleH k2 x2). split; [right; now left|]. split; [right; left; apply hashed_same|]. split; [exact Hne|exact Ha].
Qed.
Lemma strings_in s1 s2 q1 q2 a b : In a q1 -> In b q2 -> strings_collide (sp_hash P1) (hash_inputs P1 s1 a) (hash_inputs P2 s2 b) ->
  strings_collide (sp_hash P1) (strings P1 s1 q1) (strings P2 s2 q2).
Proof.
  intros Ia Ib (u & v & Hu & Hv & Hne & Hh). exists u, v. unfold strings. rewrite !in_flat_map. split; [now exists a|]. split; [now exists b|]. now split.
Qed.
End Two.

Section Api.
Context {E : Env}.
Hypothesis HE : env_ok E.

Lemma top_ok mt r sig : In r (rows mt) -> bytes_ok sig ->
  adrs_ok (HTREE (N.of_nat (sp_d (row_sp r) - 1)) (tree_of (row_sp r) (sig_index (row_sp r) sig) (sp_d (row_sp r) - 1)) (N.of_nat (sp_th (row_sp r) - 1)) 0 0) /\
  adrs_ok (HTREE (N.of_nat (sp_d (row_sp r) - 1)) 0 (N.of_nat (sp_th (row_sp r) - 1)) 0 0).
Proof.
  intros Hr Bsg. set (P := row_sp r).
  pose proof (rows_custom_ok mt r Hr) as Hcu. pose proof (c_th (row_custom r) Hcu) as Hth. change (sp_th (custom_sp (row_custom r))) with (sp_th P) in Hth.
  assert (Hd64 : r_d r <= 64). { pose proof (proj2 (proj2 (proj2 (proj2 Hcu)))) as (Q1 & Q2 & Q3). cbn [row_custom cu_h cu_d] in Q1, Q2, Q3. nia. }
  assert (Hib : (sig_index P sig < 2 ^ 64)%N).
  { unfold sig_index. eapply N.lt_le_trans; [apply os2ip_lt; now apply bytes_ok_firstn|]. rewrite pow256_pow2. apply N.pow_le_mono_r; [discriminate|].
    pose proof (firstn_le_length (sp_ib P) sig). pose proof (c_ib (row_custom r) Hcu) as Hb. change (sp_ib (custom_sp (row_custom r))) with (sp_ib P) in Hb. lia. }
  split; unfold adrs_ok; change (sp_d P) with (r_d r); repeat split; try lia. unfold tree_of. eapply N.le_lt_trans; [|exact Hib]. apply N.div_le_upper_bound; [apply N.pow_nonzero; discriminate|].
  pose proof (N.pow_nonzero 2 (N.of_nat (sp_th P * (r_d r - 1 + 1))) ltac:(discriminate)). nia.
Qed.
Lemma shape_eq mt1 mt2 r1 r2 (T1 T2 : N) : In r1 (rows mt1) -> In r2 (rows mt2) -> r_fn r1 = r_fn r2 -> r_n r1 = r_n r2 ->
  HTREE (N.of_nat (sp_d (row_sp r1) - 1)) T1 (N.of_nat (sp_th (row_sp r1) - 1)) 0 0 = HTREE (N.of_nat (sp_d (row_sp r2) - 1)) T2 (N.of_nat (sp_th (row_sp r2) - 1)) 0 0 -> r1 = r2 /\ T1 = T2.
Proof.
  intros H1 H2 Hf Hn He. injection He as Hd HT Ht. apply Nat2N.inj in Hd, Ht. split; [|exact HT].
  pose proof (rows_custom_ok mt1 r1 H1) as C1. pose proof (rows_custom_ok mt2 r2 H2) as C2.
  pose proof (c_th (row_custom r1) C1) as T1'. change (sp_th (custom_sp (row_custom r1))) with (sp_th (row_sp r1)) in T1'.
  pose proof (c_th (row_custom r2) C2) as T2'. change (sp_th (custom_sp (row_custom r2))) with (sp_th (row_sp r2)) in T2'.
  pose proof (proj1 (proj2 (proj2 (proj2 C1)))) as D1. pose proof (proj1 (proj2 (proj2 (proj2 C2)))) as D2. cbn [row_custom cu_d] in D1, D2. change (sp_d (row_sp r1)) with (r_d r1) in Hd. change (sp_d (row_sp r2)) with (r_d r2) in Hd.
  apply (rows_shape mt1 mt2); try assumption; [|lia]. change (sp_th (row_sp r1) = sp_th (row_sp r2)). lia.
Qed.
Lemma key_parts r pk : key_of r (pk_size r) pk -> let rt := firstn (r_n r) (skipn 4 pk) in let seed := skipn (4 + r_n r) pk in
  length seed = r_n r /\ pk = toByte (r_oid r) 4 ++ rt ++ seed.
Proof.
  intros (Hl & Ho & _). cbv zeta. split; [rewrite skipn_length; unfold pk_size in Hl; lia|]. rewrite <- Ho. rewrite <- (firstn_skipn 4 pk) at 1. f_equal.
  rewrite <- (firstn_skipn (r_n r) (skipn 4 pk)) at 1. f_equal. rewrite skipn_skipn. f_equal. lia.
Qed.

Lemma root_fixes mt1 mt2 r1 r2 c1 c2 mb1 mb2 l1 l2 sm1 sm2 pk1 pk2 o1 o2 : In r1 (rows mt1) -> In r2 (rows mt2) -> r_fn r1 = r_fn r2 -> r_n r1 = r_n r2 ->
  a_core c1 -> a_core c2 -> key_of r1 (pk_size r1) pk1 -> key_of r2 (pk_size r2) pk2 ->
  sig_size r1 <= length sm1 -> sig_size r2 <= length sm2 -> bytes_ok sm1 -> bytes_ok sm2 -> length sm1 <= length mb1 -> length sm2 <= length mb2 ->
  sign_open mt1 c1 mb1 l1 sm1 pk1 = Ok o1 -> oo_rc o1 = 0%Z -> sign_open mt2 c2 mb2 l2 sm2 pk2 = Ok o2 -> oo_rc o2 = 0%Z ->
  let rt := firstn (r_n r1) (skipn 4 pk1) in firstn (r_n r2) (skipn 4 pk2) = rt ->
  let seed1 := skipn (4 + r_n r1) pk1 in let seed2 := skipn (4 + r_n r2) pk2 in
  r1 = r2 /\ pk1 = pk2 \/
  strings_collide (row_hash r1) (strings (row_sp r1) seed1 (verify_queries (row_sp r1) seed1 rt (firstn (sig_size r1) sm1) (skipn (sig_size r1) sm1)))
                                (strings (row_sp r2) seed2 (verify_queries (row_sp r2) seed2 rt (firstn (sig_size r2) sm2) (skipn (sig_size r2) sm2))).
Proof.
  intros Hr1 Hr2 Hfn Hnn Hc1 Hc2 Hk1 Hk2 L1 L2 B1 B2 G1 G2 O1 R1 O2 R2 rt Hrt seed1 seed2.
  pose proof (accepted HE mt1 r1 Hr1 c1 mb1 l1 sm1 pk1 o1 Hc1 Hk1 L1 B1 G1 O1 R1) as V1.
  pose proof (accepted HE mt2 r2 Hr2 c2 mb2 l2 sm2 pk2 o2 Hc2 Hk2 L2 B2 G2 O2 R2) as V2. rewrite Hrt in V2. fold rt seed1 in V1. fold seed2 in V2.
  destruct (key_parts r1 pk1 Hk1) as [S1 E1]. destruct (key_parts r2 pk2 Hk2) as [S2 E2]. rewrite Hrt in E2. fold rt in E1. fold seed1 in S1, E1. fold seed2 in S2, E2.
  destruct (top_query HE mt1 r1 Hr1 rt seed1 _ _ (firstn_length_le sm1 L1) V1) as (x1 & X1 & Y1).
  destruct (top_query HE mt2 r2 Hr2 rt seed2 _ _ (firstn_length_le _ L2) V2) as (x2 & X2 & Y2).
  destruct (nodes_apart HE mt1 mt2 r1 r2 Hr1 Hr2 Hfn Hnn seed1 seed2 _ _ x1 x2 S1 ltac:(rewrite S2; now symmetry) (proj1 (top_ok mt1 r1 _ Hr1 (bytes_ok_firstn _ _ B1))) (proj1 (top_ok mt2 r2 _ Hr2 (bytes_ok_firstn _ _ B2))) (eq_trans Y1 (eq_sym Y2))) as [[Hs Ha]|Hcol].
  - left. destruct (shape_eq _ _ _ _ _ _ Hr1 Hr2 Hfn Hnn Ha) as [Er _]. split; [exact Er|]. rewrite E1, E2, Hs, Er. reflexivity.
  - right. exact (strings_in r1 r2 _ _ _ _ _ _ X1 X2 Hcol).
Qed.

Lemma made_root_fixes mt1 r1 core lim size rnd pk0 sk0 pk1 sk1 mt2 r2 c mbuf mlen sm pk2 oo : In r1 (rows mt1) -> signer r1 core lim size -> (forall i, (rnd i < 256)%N) ->
  length pk0 = 4 + pk_size r1 -> length sk0 = 4 + size -> bytes_ok sk0 -> keypair mt1 core pk0 sk0 (r_oid r1) rnd = Ok (0%Z, pk1, sk1) ->
  In r2 (rows mt2) -> r_fn r1 = r_fn r2 -> r_n r1 = r_n r2 -> a_core c -> key_of r2 (pk_size r2) pk2 ->
  sig_size r2 <= length sm -> bytes_ok sm -> length sm <= length mbuf ->
  sign_open mt2 c mbuf mlen sm pk2 = Ok oo -> oo_rc oo = 0%Z ->
  let rt := firstn (r_n r1) (skipn 4 pk1) in firstn (r_n r2) (skipn 4 pk2) = rt ->
  let n := r_n r1 in let sks := map rnd (seq 0 n) in let seed1 := map rnd (seq (2 * n) n) in let seed2 := skipn (4 + r_n r2) pk2 in
  r1 = r2 /\ pk1 = pk2 \/
  strings_collide (row_hash r1) (strings (row_sp r1) seed1 [root_query (row_sp r1) seed1 sks])
                                (strings (row_sp r2) seed2 (verify_queries (row_sp r2) seed2 rt (firstn (sig_size r2) sm) (skipn (sig_size r2) sm))).
Proof.
  intros Hr1 Hs Hb Lp Ls Bs Hkp Hr2 Hfn Hnn Hc2 Hk2 L2 B2 G2 O2 R2 rt Hrt n sks seed1 seed2.
  pose proof (accepted HE mt2 r2 Hr2 c mbuf mlen sm pk2 oo Hc2 Hk2 L2 B2 G2 O2 R2) as V2. rewrite Hrt in V2. fold seed2 in V2.
  destruct (signer_key HE mt1 r1 Hr1 core lim size Hs rnd pk0 sk0 Hb Lp Ls Bs) as (a & b & ct & d & ext & Hf & Hkm & Hkp0).
  rewrite Hkp in Hkp0. injection Hkp0 as Epk _. unfold key_material in Hkm. assert (Ea : sks = a) by (unfold sks, n; congruence). assert (Ed : seed1 = d) by (unfold seed1, n; congruence). assert (Ec : mt_root (row_sp r1) sks seed1 = ct) by (unfold sks, seed1, n; congruence).
  assert (Hk1 : key_of r1 (pk_size r1) pk1) by (rewrite Epk; exact (pk_is_key r1 a b ct d Hf)).
  destruct (key_parts r1 pk1 Hk1) as [S1 E1]. destruct (key_parts r2 pk2 Hk2) as [S2 E2]. rewrite Hrt in E2. fold rt in E1. fold seed2 in S2, E2.
  assert (Hparts : rt = ct /\ skipn (4 + r_n r1) pk1 = seed1).
  { rewrite Epk in E1. unfold public_key in E1. apply app_inv_head in E1. destruct Hf as [(_ & _ & Lc & Ld) _].
    assert (Lrt : length rt = length ct). { unfold rt. rewrite firstn_length, skipn_length. destruct Hk1 as [Hl _]. unfold pk_size in Hl. lia. }
    apply app_inj_len in E1; [|now symmetry]. destruct E1 as [Q1 Q2]. rewrite Epk, Ed. split; [now symmetry|]. symmetry. exact Q2. }
  destruct Hparts as [Ert Es1]. rewrite Es1 in S1, E1.
  assert (Hroot : answer (row_sp r1) seed1 (root_query (row_sp r1) seed1 sks) = rt).
  { rewrite Ert, <- Ec. pose proof (c_th (row_custom r1) (rows_custom_ok mt1 r1 Hr1)) as Hth. change (sp_th (custom_sp (row_custom r1))) with (sp_th (row_sp r1)) in Hth.
    unfold mt_root, root. destruct (sp_th (row_sp r1)) as [|t] eqn:Et; [lia|]. unfold root_query. rewrite Et. cbn [Nat.sub]. rewrite Nat.sub_0_r. cbn [node]. reflexivity. }
  assert (Hq : exists x0, root_query (row_sp r1) seed1 sks = Qnode (HTREE (N.of_nat (sp_d (row_sp r1) - 1)) 0 (N.of_nat (sp_th (row_sp r1) - 1)) 0 0) x0) by (eexists; reflexivity).
  destruct Hq as [x1 Hq]. rewrite Hq in *.
  destruct (top_query HE mt2 r2 Hr2 rt seed2 _ _ (firstn_length_le _ L2) V2) as (x2 & X2 & Y2).
  destruct (nodes_apart HE mt1 mt2 r1 r2 Hr1 Hr2 Hfn Hnn seed1 seed2 _ _ x1 x2 S1 ltac:(rewrite S2; now symmetry) (proj2 (top_ok mt1 r1 [] Hr1 (Forall_nil _))) (proj1 (top_ok mt2 r2 _ Hr2 (bytes_ok_firstn _ _ B2))) (eq_trans Hroot (eq_sym Y2))) as [[Hss Ha]|Hcol].
  - left. destruct (shape_eq _ _ _ _ _ _ Hr1 Hr2 Hfn Hnn Ha) as [Er _]. split; [exact Er|]. rewrite E1, E2, Hss, Er. reflexivity.
  - right. eapply strings_in; [|exact X2|exact Hcol]. left. reflexivity.
Qed.
End Api.
