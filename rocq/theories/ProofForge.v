(** Unforgeability over a history: any accepted signed message that was not released breaks
    the hash; one-time keys sign one value. *)
From Verif Require Import Base Lib ModelUtils ModelParams ModelHash ModelWots ModelCommons ModelCore ModelXmss SpecRfc SpecParams SpecApi SpecComp SpecSec SpecForge
  ProofUtils ProofHash ProofWots ProofCommons ProofTree ProofCore ProofParams ProofApi ProofHistory ProofMain ProofComp ProofComp2 ProofUi2 ProofSec ProofSec2.

Section Spec.
Variable P : sparams.
Variable seed : bytes.
Hypothesis Hn : forall x, length (sp_hash P x) = sp_n P /\ bytes_ok (sp_hash P x).

Lemma layer_steps_at idx : forall cnt k M sigs b y, In (Qstep b y) (layer_queries P seed idx M k cnt sigs) ->
  exists j c t, j < cnt /\ b = OTS (N.of_nat (k + j)) (tree_of P idx (k + j)) (leaf_of P idx (k + j)) (N.of_nat c) (N.of_nat t) 0 /\
    nth c (wots_digits P (mt_climb P seed idx M k j sigs)) 0 <= t.
Proof.
  induction cnt as [|cnt IH]; intros k M sigs b y; cbn [layer_queries]; [intros []|]. cbv zeta. rewrite in_app_iff. intros [H|H].
  - apply (root_queries_steps P Hn) in H. destruct H as [c [t [-> H]]]. exists 0, c, t. rewrite Nat.add_0_r. split; [lia|]. split; [reflexivity|exact H].
  - apply IH in H. destruct H as [j [c [t [Hj [-> H]]]]]. exists (S j), c, t. rewrite <- Nat.add_succ_comm. split; [lia|]. split; [reflexivity|exact H].
Qed.

Lemma climb_last L T : forall auth nd j i, 1 <= length auth ->
  exists x, In (Qnode (HTREE L T (N.of_nat (j + length auth - 1)) (i / 2 ^ N.of_nat (length auth)) 0) x) (climb_queries P seed L T nd j i auth) /\
    answer P seed (Qnode (HTREE L T (N.of_nat (j + length auth - 1)) (i / 2 ^ N.of_nat (length auth)) 0) x) = climb P seed L T nd j i auth.
Proof.
  induction auth as [|u auth IH]; intros nd j i Hl; cbn [length] in Hl |- *; [lia|].
  destruct auth as [|v auth].
  - cbn [length climb_queries climb]. replace (j + 1 - 1) with j by lia. change (2 ^ N.of_nat 1)%N with 2%N.
    destruct (N.even i); eexists; (split; [left; reflexivity|reflexivity]).
  - cbn [climb_queries climb]. destruct (IH (if N.even i then RAND_HASH P seed (HTREE L T (N.of_nat j) (i / 2)) nd u else RAND_HASH P seed (HTREE L T (N.of_nat j) (i / 2)) u nd) (S j) (i / 2)%N) as [x [H1 H2]]; [cbn [length]; lia|].
    assert (He : (i / 2 / 2 ^ N.of_nat (length (v :: auth)) = i / 2 ^ N.of_nat (S (length (v :: auth))))%N).
    { rewrite N.div_div by (try apply N.pow_nonzero; discriminate). f_equal. rewrite Nat2N.inj_succ, N.pow_succ_r'. reflexivity. }
    rewrite He in H1, H2. replace (S j + length (v :: auth) - 1) with (j + S (length (v :: auth)) - 1) in H1, H2 by lia.
    exists x. split; [|exact H2]. right. exact H1.
Qed.

(** a collision at one place is a collision of the hash function *)
Definition no_msg (l : list query) : Prop := forall a b c d, ~ In (Qmsg a b c d) l.
Lemma no_msg_app l l' : no_msg l -> no_msg l' -> no_msg (l ++ l').
Proof. intros H1 H2 a b c d Hx. apply in_app_iff in Hx. destruct Hx as [Hx|Hx]; [exact (H1 _ _ _ _ Hx)|exact (H2 _ _ _ _ Hx)]. Qed.
Lemma no_msg_cons q l : match q with Qmsg _ _ _ _ => False | _ => True end -> no_msg l -> no_msg (q :: l).
Proof. intros H1 H2 a b c d [->|Hx]; [exact H1|exact (H2 _ _ _ _ Hx)]. Qed.
Lemma no_msg_nil : no_msg []. Proof. intros a b c d []. Qed.
Lemma no_msg_layers idx : forall cnt k M sigs, no_msg (layer_queries P seed idx M k cnt sigs).
Proof.
  induction cnt as [|cnt IH]; intros k M sigs; cbn [layer_queries]; [exact no_msg_nil|]. cbv zeta. apply no_msg_app; [|apply IH].
  unfold root_queries. apply no_msg_app; [|apply no_msg_app].
  - unfold wots_queries. induction (seq 0 (sp_len P)) as [|c l IHl]; cbn [map concat]; [exact no_msg_nil|]. apply no_msg_app; [|exact IHl].
    generalize (sp_w P - 1 - nth c (wots_digits P M) 0). intros n. induction n as [|n IHn]; cbn [chain_queries]; [exact no_msg_nil|].
    apply no_msg_app; [exact IHn|]. apply no_msg_cons; [exact I|exact no_msg_nil].
  - generalize (wots_pkFromSig P seed (N.of_nat k) (tree_of P idx k) (leaf_of P idx k) M (pieces P (sp_len P) sigs)). generalize 0 at 1.
    assert (Hlev : forall n L T o h i (l : list bytes), length l <= n -> no_msg (level_queries P seed L T o h i l)).
    { induction n as [|n IHn]; intros L T o h i l Hl; (destruct l as [|u [|v l]]; cbn [level_queries]; [exact no_msg_nil|exact no_msg_nil|]); cbn [length] in Hl; [lia|].
      apply no_msg_cons; [exact I|]. apply IHn. lia. }
    induction (sp_len P) as [|q IHq]; intros h nodes; cbn [ltree_queries]; [exact no_msg_nil|]. destruct (length nodes <=? 1); [exact no_msg_nil|].
    apply no_msg_app; [exact (Hlev _ _ _ _ _ _ _ (Nat.le_refl _))|apply IHq].
  - generalize (pieces P (sp_th P) (skipn (sp_len P * sp_n P) sigs)).
    generalize (ltree P seed (N.of_nat k) (tree_of P idx k) (leaf_of P idx k) (sp_len P) 0 (wots_pkFromSig P seed (N.of_nat k) (tree_of P idx k) (leaf_of P idx k) M (pieces P (sp_len P) sigs))).
    generalize 0, (leaf_of P idx k). intros j i nd l. revert j i nd. induction l as [|u l IHl]; intros j i nd; cbn [climb_queries]; [exact no_msg_nil|].
    apply no_msg_cons; [destruct (N.even i); exact I|apply IHl].
Qed.
Lemma verify_msg rt sg m a b c e : In (Qmsg a b c e) (verify_queries P seed rt sg m) -> a = sig_R P sg /\ b = rt /\ c = sig_index P sg /\ e = m.
Proof. intros [Hx|Hx]; [injection Hx; intuition congruence|]. exfalso. exact (no_msg_layers _ _ _ _ _ _ _ _ _ Hx). Qed.
Lemma collision_hash rt s1 m1 s2 m2 : length (sig_R P s1) = length (sig_R P s2) -> sig_index P s1 = sig_index P s2 ->
  collision P seed (verify_queries P seed rt s1 m1) (verify_queries P seed rt s2 m2) ->
  hash_collision P seed (verify_queries P seed rt s1 m1) (verify_queries P seed rt s2 m2).
Proof.
  intros HR HI (a & b & H1 & H2 & Hne & Hpl & Han & Hk). destruct a as [r1 t1 i1 x1|a1 x1|a1 x1], b as [r2 t2 i2 x2|a2 x2|a2 x2]; try easy.
  - exists (Qmsg r1 t1 i1 x1), (Qmsg r2 t2 i2 x2). eexists _, _. split; [exact H1|]. split; [exact H2|]. split; [left; reflexivity|]. split; [left; reflexivity|].
    split; [|exact Han]. destruct (verify_msg _ _ _ _ _ _ _ H1) as (-> & -> & -> & ->). destruct (verify_msg _ _ _ _ _ _ _ H2) as (-> & -> & -> & ->).
    rewrite HI in *. unfold hashed. intros He. apply Hne. apply app_inv_head in He. apply app_inj_len in He; [|rewrite !app_length; lia]. destruct He as [He ->].
    apply app_inj_len in He; [|exact HR]. destruct He as [-> _]. reflexivity.
  - cbn [place] in Hpl. injection Hpl as ->. exists (Qnode a2 x1), (Qnode a2 x2). eexists _, _. split; [exact H1|]. split; [exact H2|].
    split; [right; left; reflexivity|]. split; [right; left; reflexivity|]. split; [|exact Han]. unfold hashed. intros He. do 2 apply app_inv_head in He. congruence.
  - cbn [place] in Hpl. injection Hpl as ->. exists (Qstep a2 x1), (Qstep a2 x2). eexists _, _. split; [exact H1|]. split; [exact H2|].
    split; [right; left; reflexivity|]. split; [right; left; reflexivity|]. split; [|exact Han]. unfold hashed. intros He. do 2 apply app_inv_head in He. congruence.
Qed.
End Spec.

(** which one-time key: tree and leaf determine the index above the layer *)
Lemma same_place P i j l : tree_of P i l = tree_of P j l -> leaf_of P i l = leaf_of P j l ->
  (i / 2 ^ N.of_nat (sp_th P * l) = j / 2 ^ N.of_nat (sp_th P * l))%N.
Proof.
  unfold tree_of, leaf_of. intros H1 H2.
  assert (Hx : forall x, (x / 2 ^ N.of_nat (sp_th P * (l + 1)) = x / 2 ^ N.of_nat (sp_th P * l) / 2 ^ N.of_nat (sp_th P))%N).
  { intros x. rewrite N.div_div by (apply N.pow_nonzero; discriminate). rewrite <- N.pow_add_r. do 2 f_equal. lia. }
  rewrite !Hx in H1.
  rewrite (N.div_mod (i / 2 ^ N.of_nat (sp_th P * l)) (2 ^ N.of_nat (sp_th P))) by (apply N.pow_nonzero; discriminate).
  rewrite (N.div_mod (j / 2 ^ N.of_nat (sp_th P * l)) (2 ^ N.of_nat (sp_th P))) by (apply N.pow_nonzero; discriminate).
  rewrite H1, H2. reflexivity.
Qed.

Section Api.
Context {E : Env}.
Hypothesis HE : env_ok E.
Variables (mt : bool) (r : row).
Hypothesis Hr : In r (rows mt).
Notation P := (row_sp r).
Variables (a b ct d : bytes).
Hypothesis Hf : fields r a b ct d.
Hypothesis Hct : ct = mt_root P a d.

Let Hn : forall x, length (sp_hash P x) = sp_n P /\ bytes_ok (sp_hash P x) := c_hash_n HE (row_custom r) (rows_custom_ok mt r Hr).
Definition msg_hash (i : N) (m : bytes) : bytes := H_msg P (PRF P b (toByte i 32)) ct i m.

Lemma honest_index i m : (i < 2 ^ N.of_nat (r_h r))%N -> sig_index P (mt_sign P a b ct d i m) = i.
Proof.
  intros Hi. unfold sig_index, mt_sign. cbv zeta. rewrite firstn_app_len by (now rewrite toByte_length).
  rewrite os2ip_toByte. apply N.mod_small. pose proof (idx_size_le mt r Hr) as [_ Hh]. rewrite pow256_pow2. fold (idx_size r).
  eapply N.lt_le_trans; [exact Hi|]. apply N.pow_le_mono_r; [discriminate|]. lia.
Qed.
Lemma honest_R i m : sig_R P (mt_sign P a b ct d i m) = PRF P b (toByte i 32).
Proof.
  unfold sig_R, mt_sign. cbv zeta. rewrite skipn_app_len by (now rewrite toByte_length). apply firstn_app_len. symmetry. apply Hn.
Qed.
Lemma honest_layers i m : sig_layers P (mt_sign P a b ct d i m) = concat (map (layer_sig P a d (msg_hash i m) i) (seq 0 (sp_d P))).
Proof.
  unfold sig_layers, mt_sign. cbv zeta. rewrite app_assoc. apply skipn_app_len. rewrite app_length, toByte_length. unfold PRF. rewrite (proj1 (Hn _)). reflexivity.
Qed.
Lemma honest_climb i m l : l <= sp_d P ->
  mt_climb P d i (msg_hash i m) 0 l (concat (map (layer_sig P a d (msg_hash i m) i) (seq 0 (sp_d P)))) = layer_msg P a d (msg_hash i m) i l.
Proof.
  intros Hl. replace (sp_d P) with (l + (sp_d P - l)) by lia. rewrite seq_app, map_app, concat_app.
  destruct Hf as [[La [Lb [Lc Ld]]] _].
  pose proof (mt_climb_layers (row_params r (sk_ref r)) _ (p_ok mt r Hr) (p_hash HE mt r Hr) a d (msg_hash i m) i
    (concat (map (layer_sig P a d (msg_hash i m) i) (seq (0 + l) (sp_d P - l))))) as H.
  rewrite (sp_of_row r (sk_ref r)) in H. rewrite row_n in H. specialize (H La Ld l 0). cbn [layer_msg Nat.add] in H |- *. exact H.
Qed.
Lemma honest_signed i m l : (i < 2 ^ N.of_nat (r_h r))%N -> l <= sp_d P ->
  signed_at P d ct (mt_sign P a b ct d i m) m l = layer_msg P a d (msg_hash i m) i l.
Proof.
  intros Hi Hl. unfold signed_at. rewrite (honest_index i m Hi), honest_R, honest_layers. fold (msg_hash i m). now apply honest_climb.
Qed.
Lemma honest_steps i m q y : (i < 2 ^ N.of_nat (r_h r))%N -> In (Qstep q y) (verify_queries P d ct (mt_sign P a b ct d i m) m) ->
  exists l c t, l < sp_d P /\ q = OTS (N.of_nat l) (tree_of P i l) (leaf_of P i l) (N.of_nat c) (N.of_nat t) 0 /\
    nth c (wots_digits P (layer_msg P a d (msg_hash i m) i l)) 0 <= t.
Proof.
  intros Hi. unfold verify_queries. rewrite (honest_index i m Hi), honest_R, honest_layers. fold (msg_hash i m).
  intros [H|H]; [discriminate|]. apply (layer_steps_at P d Hn) in H. destruct H as [l [c [t [Hl [Hq Hd]]]]]. cbn [Nat.add] in *.
  exists l, c, t. split; [exact Hl|]. split; [exact Hq|]. rewrite honest_climb in Hd by lia. exact Hd.
Qed.

(** a released signature that evaluates a chain of a one-time key below what an honest
    signature of index [k] shows must be that very signature's index and another message *)
Lemma not_shown k m' j mj l c s y : (k < 2 ^ N.of_nat (r_h r))%N -> (j < 2 ^ N.of_nat (r_h r))%N -> l < sp_d P ->
  (j = k -> mj = m') ->
  nth c (wots_digits P (signed_at P d ct (mt_sign P a b ct d k m') m' l)) 0 = S s ->
  ~ In (Qstep (OTS (N.of_nat l) (tree_of P k l) (leaf_of P k l) (N.of_nat c) (N.of_nat s) 0) y)
       (verify_queries P d ct (mt_sign P a b ct d j mj) mj).
Proof.
  intros Hk Hj Hl Hm Hd Hin. rewrite (honest_signed k m' l Hk) in Hd by lia.
  apply (honest_steps j mj _ y Hj) in Hin. destruct Hin as [l' [c' [t [Hl' [Hq Hd']]]]].
  injection Hq as H1 H2 H3 H4 H5. apply Nat2N.inj in H1, H4, H5. subst l' c' t.
  pose proof (same_place P k j l H2 H3) as Hs.
  assert (He : layer_msg P a d (msg_hash k m') k l = layer_msg P a d (msg_hash j mj) j l).
  { destruct l as [|l].
    - cbn [layer_msg]. rewrite Nat.mul_0_r in Hs. change (2 ^ N.of_nat 0)%N with 1%N in Hs. rewrite !N.div_1_r in Hs. subst j. now rewrite (Hm eq_refl).
    - cbn [layer_msg]. unfold tree_of. replace (l + 1) with (S l) by lia. now rewrite Hs. }
  rewrite He in Hd. lia.
Qed.

(** the last hash of a successful verification *)
Lemma top_query sig m : length sig = sig_size r -> mt_verify P ct d sig m = true ->
  exists x, In (Qnode (HTREE (N.of_nat (sp_d P - 1)) (tree_of P (sig_index P sig) (sp_d P - 1)) (N.of_nat (sp_th P - 1)) 0 0) x) (verify_queries P d ct sig m) /\
    answer P d (Qnode (HTREE (N.of_nat (sp_d P - 1)) (tree_of P (sig_index P sig) (sp_d P - 1)) (N.of_nat (sp_th P - 1)) 0 0) x) = ct.
Proof.
  intros Lsg Hv. unfold mt_verify in Hv. cbv zeta in Hv. fold (sig_index P sig) (sig_R P sig) (sig_layers P sig) in Hv.
  set (M := H_msg P (sig_R P sig) ct (sig_index P sig) m) in *.
  destruct (list_eq_dec N.eq_dec (mt_climb P d (sig_index P sig) M 0 (sp_d P) (sig_layers P sig)) ct) as [W|]; [clear Hv|discriminate].
  pose proof (rows_custom_ok mt r Hr) as Hcu. pose proof (c_th (row_custom r) Hcu) as Hth.
  change (sp_th (custom_sp (row_custom r))) with (sp_th P) in Hth.
  pose proof (po_d _ (p_ok mt r Hr)) as Hd0. assert (Ed : p_d (row_params r (sk_ref r)) = r_d r) by apply Nat2N.id. rewrite Ed in Hd0.
  assert (HD : sp_d P = S (sp_d P - 1)) by (change (sp_d P) with (r_d r); lia).
  set (k := sp_d P - 1) in *. set (idx := sig_index P sig) in *.
  rewrite HD in W. rewrite (mt_climb_snoc P Hn (c_len (row_custom r) (rows_custom_ok mt r Hr))) in W. cbn [Nat.add] in W.
  set (sz := (sp_len P + sp_th P) * sp_n P) in *.
  assert (I := layer_queries_in P Hn (c_len (row_custom r) (rows_custom_ok mt r Hr)) d idx (sp_d P) M 0 (sig_layers P sig) k ltac:(lia)). cbn [Nat.add] in I. fold sz in I.
  set (s := skipn (k * sz) (sig_layers P sig)) in *. set (Mk := mt_climb P d idx M 0 k (sig_layers P sig)) in *.
  set (au := pieces P (sp_th P) (skipn (sp_len P * sp_n P) s)) in *.
  assert (La : length au = sp_th P).
  { unfold au. apply (pieces_n P Hn). unfold s. rewrite skipn_length, skipn_length. unfold sig_layers. rewrite skipn_length.
    unfold sig_size, sp_sig_bytes in Lsg. fold sz in Lsg. rewrite HD in Lsg. unfold sz in *. nia. }
  unfold rootFromSig in W. unfold root_queries in I. cbv zeta in I.
  match type of W with climb _ _ ?L ?T ?nd ?j ?i _ = _ => destruct (climb_last P d Hn L T au nd j i) as [x [X1 X2]]; [lia|] end.
  rewrite La in X1, X2. cbn [Nat.add] in X1, X2.
  assert (Hleaf : (leaf_of P idx k / 2 ^ N.of_nat (sp_th P) = 0)%N) by (apply N.div_small; unfold leaf_of; apply N.mod_upper_bound, N.pow_nonzero; discriminate).
  rewrite Hleaf in X1, X2. exists x.
  split; [right; fold M idx; apply I; apply in_app_iff; right; apply in_app_iff; right; exact X1|]. rewrite X2; exact W.
Qed.
Lemma row_hd : sp_h P = sp_th P * (sp_d P - 1 + 1).
Proof.
  pose proof (po_d _ (p_ok mt r Hr)) as Hd0. assert (Ed : p_d (row_params r (sk_ref r)) = r_d r) by apply Nat2N.id. rewrite Ed in Hd0.
  pose proof (po_h _ (p_ok mt r Hr)) as Hhh. rewrite row_h in Hhh. change (sp_h P) with (r_h r). rewrite Hhh.
  replace (sp_d P - 1 + 1) with (sp_d P) by (change (sp_d P) with (r_d r); lia). rewrite <- (sp_of_row r (sk_ref r)). rewrite (sp_th_of _ _ (p_ok mt r Hr)). cbn [sp_d sp_of]. lia.
Qed.
Lemma top_tree idx : (2 ^ N.of_nat (r_h r) <= idx)%N -> tree_of P idx (sp_d P - 1) <> 0%N.
Proof.
  intros Hi Et. unfold tree_of in Et. rewrite <- row_hd in Et. change (sp_h P) with (r_h r) in Et.
  apply N.div_small_iff in Et; [lia|apply N.pow_nonzero; discriminate].
Qed.
(** the public root at a place outside the key's trees *)
Lemma out_of_range sig m : length sig = sig_size r -> (2 ^ N.of_nat (r_h r) <= sig_index P sig)%N ->
  mt_verify P ct d sig m = true -> foreign_root P d ct (verify_queries P d ct sig m).
Proof.
  intros Lsg Hi Hv. destruct (top_query sig m Lsg Hv) as (x & X1 & X2). eexists _, x. split; [exact X1|]. split; [exact X2|].
  intros Hka. inversion Hka as [| |l t j i q Hl Ht Hj Hii Hq [Ea Et Ec Eh]]. clear Ec. apply Nat2N.inj in Ea. subst l.
  rewrite row_hd, Nat.sub_diag in Ht. change (2 ^ N.of_nat 0)%N with 1%N in Ht. apply (top_tree _ Hi). change (sp_d P) with (r_d r). apply N.lt_1_r. exact Ht.
Qed.
(** ... which is a collision of the hash function itself, with the last hash of key generation *)
Lemma out_of_range_collision sig m : length sig = sig_size r -> bytes_ok sig -> (2 ^ N.of_nat (r_h r) <= sig_index P sig)%N ->
  mt_verify P ct d sig m = true -> hash_collision P d [root_query P d a] (verify_queries P d ct sig m).
Proof.
  intros Lsg Bsg Hi Hv. destruct (top_query sig m Lsg Hv) as (x & X1 & X2).
  pose proof (rows_custom_ok mt r Hr) as Hcu. pose proof (c_th (row_custom r) Hcu) as Hth. change (sp_th (custom_sp (row_custom r))) with (sp_th P) in Hth.
  set (A1 := HTREE (N.of_nat (sp_d P - 1)) (tree_of P (sig_index P sig) (sp_d P - 1)) (N.of_nat (sp_th P - 1)) 0 0) in *.
  set (A0 := HTREE (N.of_nat (sp_d P - 1)) 0 (N.of_nat (sp_th P - 1)) 0 0).
  assert (Hroot : answer P d (root_query P d a) = ct).
  { rewrite Hct. unfold mt_root, root. destruct (sp_th P) as [|t] eqn:Et; [lia|]. unfold root_query. rewrite Et. cbn [Nat.sub]. rewrite Nat.sub_0_r. cbn [node]. reflexivity. }
  assert (Hd64 : r_d r <= 64). { pose proof (proj2 (proj2 (proj2 (proj2 Hcu)))) as (Q1 & Q2 & Q3). cbn [row_custom cu_h cu_d] in Q1, Q2, Q3. nia. }
  assert (Hne : A1 <> A0) by (unfold A1, A0; intros He; injection He as He; exact (top_tree _ Hi He)).
  assert (Hib : (sig_index P sig < 2 ^ 64)%N).
  { unfold sig_index. eapply N.lt_le_trans; [apply os2ip_lt; now apply bytes_ok_firstn|]. rewrite pow256_pow2. apply N.pow_le_mono_r; [discriminate|].
    pose proof (firstn_le_length (sp_ib P) sig). pose proof (c_ib (row_custom r) Hcu) as Hb. change (sp_ib (custom_sp (row_custom r))) with (sp_ib P) in Hb. lia. }
  assert (O1 : adrs_ok A1).
  { unfold A1, adrs_ok. change (sp_d P) with (r_d r). repeat split; try lia. unfold tree_of. eapply N.le_lt_trans; [|exact Hib]. apply N.div_le_upper_bound; [apply N.pow_nonzero; discriminate|].
    pose proof (N.pow_nonzero 2 (N.of_nat (sp_th P * (sp_d P - 1 + 1))) ltac:(discriminate)). nia. }
  assert (O0 : adrs_ok A0) by (unfold A0, adrs_ok; change (sp_d P) with (r_d r); repeat split; lia).
  assert (Hq : exists x0, root_query P d a = Qnode A0 x0) by (eexists; reflexivity). destruct Hq as [x0 Hq]. rewrite Hq in *.
  destruct (list_eq_dec N.eq_dec (PRF P d (adrs_bytes A1)) (PRF P d (adrs_bytes A0))) as [Hk|Hk].
  - exists (Qnode A0 x0), (Qnode A1 x), (hashed P RolePrf d (adrs_bytes A0)), (hashed P RolePrf d (adrs_bytes A1)).
    split; [left; reflexivity|]. split; [exact X1|]. split; [left; reflexivity|]. split; [left; reflexivity|]. split; [|symmetry; exact Hk].
    unfold hashed. intros He. do 2 apply app_inv_head in He. apply adrs_inj in He; [congruence|assumption|assumption].
  - exists (Qnode A0 x0), (Qnode A1 x), (hashed P RoleH (PRF P d (adrs_bytes A0)) x0), (hashed P RoleH (PRF P d (adrs_bytes A1)) x).
    split; [left; reflexivity|]. split; [exact X1|]. split; [right; left; reflexivity|]. split; [right; left; reflexivity|].
    split; [|transitivity ct; [exact Hroot|symmetry; exact X2]].
    unfold hashed. intros He. apply app_inv_head in He. apply (app_inj_len _ _ _ _) in He; [destruct He; congruence|]. transitivity (sp_n P); [apply Hn|symmetry; apply Hn].
Qed.

(** what the signer has given out *)
Definition pairs (os : list sign_out) : list (bytes * bytes) :=
  map (fun o => (firstn (sig_size r) (signed_message o), skipn (sig_size r) (signed_message o))) os.
Definition gave (cs : list call) (os : list sign_out) : Prop :=
  length os = length cs /\
  forall j x o, nth_error cs j = Some x -> nth_error os j = Some o ->
    signed_message o = mt_sign P a b ct d (N.of_nat j) (c_m x) ++ c_m x.

Lemma gave_pair cs os rs rm : gave cs os -> In (rs, rm) (pairs os) ->
  exists j x, nth_error cs j = Some x /\ rs = mt_sign P a b ct d (N.of_nat j) (c_m x) /\ rm = c_m x.
Proof.
  intros [Hl Hg] Hin. unfold pairs in Hin. apply in_map_iff in Hin. destruct Hin as [o [He Ho]]. apply In_nth_error in Ho. destruct Ho as [j Hj].
  assert (Hlt : j < length cs) by (rewrite <- Hl; apply nth_error_Some; congruence).
  destruct (nth_error cs j) as [x|] eqn:Ex; [|apply nth_error_None in Ex; lia].
  rewrite (Hg j x o Ex Hj) in He. pose proof (mt_sign_len HE mt r Hr a b ct d (N.of_nat j) (c_m x)) as Lsg.
  rewrite firstn_app_len, skipn_app_len in He by auto. injection He as <- <-. exists j, x. auto.
Qed.

Lemma in_range_forgery cs os c mbuf mlen sm oo : (N.of_nat (length cs) <= 2 ^ N.of_nat (r_h r))%N -> gave cs os ->
  a_core c -> sig_size r <= length sm -> bytes_ok sm -> length sm <= length mbuf ->
  sign_open mt c mbuf mlen sm (public_key r ct d) = Ok oo -> oo_rc oo = 0%Z ->
  let k := sm_index r sm in let msg := skipn (sig_size r) sm in
  let forged := verify_queries P d ct (firstn (sig_size r) sm) msg in
  (k < 2 ^ N.of_nat (r_h r))%N ->
  forall m', bytes_ok m' -> mt_sign P a b ct d k m' ++ m' <> sm -> (forall x, nth_error cs (N.to_nat k) = Some x -> m' = c_m x) ->
    let hsig := mt_sign P a b ct d k m' in
    collision P d (verify_queries P d ct hsig m') forged \/ inverted P d ct (pairs os) hsig m' forged.
Proof.
  intros Hn0 Hg Hc Lsm Bsm Lmb Hop Hrc k msg forged Hlt m' Bm Hne Hm' hsig.
  pose proof (pk_is_key r a b ct d Hf) as Hkey.
  assert (Hrt : firstn (r_n r) (skipn 4 (public_key r ct d)) = ct).
  { destruct Hf as [[La [Lb [Lc Ld]]] _]. unfold public_key. rewrite skipn_app_len by (now rewrite toByte_length). now apply firstn_app_len. }
  assert (Hsd : skipn (4 + r_n r) (public_key r ct d) = d).
  { destruct Hf as [[La [Lb [Lc Ld]]] _]. unfold public_key. rewrite app_assoc. apply skipn_app_len. rewrite app_length, toByte_length. lia. }
  assert (Hs : idx_size r <= sig_size r) by (unfold sig_size, sp_sig_bytes, idx_size; lia).
  assert (Hk : sig_index P (firstn (sig_size r) sm) = k).
  { unfold sig_index, k, sm_index. rewrite firstn_firstn. fold (idx_size r). now rewrite Nat.min_l by exact Hs. }
  assert (Lsg : length hsig = sig_size r) by (apply (mt_sign_len HE mt r Hr)).
  destruct (honest_opens HE mt r Hr a b ct d Hf Hct c k m' (repeat 0%N (sig_size r + length m')) 0) as [oh [Hoh [Hhc _]]]; [exact Hc|exact Hlt|exact Bm|rewrite repeat_length; lia|].
  fold hsig in Hoh.
  pose proof (two_openings HE mt r Hr c c (repeat 0%N (sig_size r + length m')) mbuf 0 mlen (hsig ++ m') sm (public_key r ct d) oh oo Hc Hc Hkey) as Ht.
  cbv zeta in Ht. rewrite Hrt, Hsd, firstn_app_len, skipn_app_len in Ht by auto. fold msg forged in Ht.
  destruct Ht as [Ht|Ht].
  + rewrite app_length. lia.
  + exact Lsm.
  + apply Forall_app. split; [apply (mt_sign_bytes HE mt r Hr)|exact Bm].
  + exact Bsm.
  + rewrite repeat_length, app_length. lia.
  + exact Lmb.
  + exact Hoh.
  + exact Hhc.
  + exact Hop.
  + exact Hrc.
  + fold k. unfold sm_index. rewrite <- (honest_index k m' Hlt). fold hsig. unfold sig_index. fold (idx_size r). f_equal.
    rewrite firstn_app, (proj2 (Nat.sub_0_le (idx_size r) (length hsig))) by lia. cbn [firstn]. now rewrite app_nil_r.
  + exact Hne.
  + left. exact Ht.
  + right. destruct Ht as [l [ch [s [x [Hl [Hch [H1 [_ [H3 H4]]]]]]]]]. exists l, ch, s, x. split; [exact Hl|]. split; [exact Hch|]. cbv zeta.
    split; [exact H1|]. split; [|split; [exact H3|exact H4]].
    intros rs rm y Hin. destruct (gave_pair cs os rs rm Hg Hin) as [j [z [Hz [-> ->]]]].
    assert (Hj : j < length cs) by (apply nth_error_Some; congruence).
    unfold hsig. rewrite (honest_index k m' Hlt). apply (not_shown k m'); [exact Hlt|lia|exact Hl| |exact H3].
    intros He. symmetry. apply Hm'. rewrite <- He, Nat2N.id. exact Hz.
Qed.

Lemma no_forgery cs os c mbuf mlen sm oo : (N.of_nat (length cs) <= 2 ^ N.of_nat (r_h r))%N -> gave cs os ->
  a_core c -> sig_size r <= length sm -> bytes_ok sm -> length sm <= length mbuf ->
  sign_open mt c mbuf mlen sm (public_key r ct d) = Ok oo -> oo_rc oo = 0%Z ->
  let k := sm_index r sm in let msg := skipn (sig_size r) sm in
  let forged := verify_queries P d ct (firstn (sig_size r) sm) msg in
  foreign_root P d ct forged \/
  (k < 2 ^ N.of_nat (r_h r))%N /\
  forall m', bytes_ok m' -> mt_sign P a b ct d k m' ++ m' <> sm -> (forall x, nth_error cs (N.to_nat k) = Some x -> m' = c_m x) ->
    let hsig := mt_sign P a b ct d k m' in
    collision P d (verify_queries P d ct hsig m') forged \/ inverted P d ct (pairs os) hsig m' forged.
Proof.
  intros Hn0 Hg Hc Lsm Bsm Lmb Hop Hrc k msg forged.
  pose proof (pk_is_key r a b ct d Hf) as Hkey.
  assert (Hrt : firstn (r_n r) (skipn 4 (public_key r ct d)) = ct).
  { destruct Hf as [[La [Lb [Lc Ld]]] _]. unfold public_key. rewrite skipn_app_len by (now rewrite toByte_length). now apply firstn_app_len. }
  assert (Hsd : skipn (4 + r_n r) (public_key r ct d) = d).
  { destruct Hf as [[La [Lb [Lc Ld]]] _]. unfold public_key. rewrite app_assoc. apply skipn_app_len. rewrite app_length, toByte_length. lia. }
  assert (Hs : idx_size r <= sig_size r) by (unfold sig_size, sp_sig_bytes, idx_size; lia).
  assert (Hk : sig_index P (firstn (sig_size r) sm) = k).
  { unfold sig_index, k, sm_index. rewrite firstn_firstn. fold (idx_size r). now rewrite Nat.min_l by exact Hs. }
  destruct (N.lt_ge_cases k (2 ^ N.of_nat (r_h r))) as [Hlt|Hge].
  - right. split; [exact Hlt|]. exact (in_range_forgery cs os c mbuf mlen sm oo Hn0 Hg Hc Lsm Bsm Lmb Hop Hrc Hlt).
  - left. apply out_of_range; [rewrite firstn_length; lia|rewrite Hk; exact Hge|].
    pose proof (accepted HE mt r Hr c mbuf mlen sm _ oo Hc Hkey Lsm Bsm Lmb Hop Hrc) as Hv. rewrite Hrt, Hsd in Hv. exact Hv.
Qed.

(** the same with collisions of the hash function only *)
Lemma forgery_breaks cs os c mbuf mlen sm oo : (N.of_nat (length cs) <= 2 ^ N.of_nat (r_h r))%N -> gave cs os ->
  a_core c -> sig_size r <= length sm -> bytes_ok sm -> length sm <= length mbuf ->
  sign_open mt c mbuf mlen sm (public_key r ct d) = Ok oo -> oo_rc oo = 0%Z ->
  let k := sm_index r sm in let msg := skipn (sig_size r) sm in
  let forged := verify_queries P d ct (firstn (sig_size r) sm) msg in
  ((2 ^ N.of_nat (r_h r) <= k)%N -> hash_collision P d [root_query P d a] forged) /\
  ((k < 2 ^ N.of_nat (r_h r))%N -> forall m', bytes_ok m' -> mt_sign P a b ct d k m' ++ m' <> sm -> (forall x, nth_error cs (N.to_nat k) = Some x -> m' = c_m x) ->
    let hsig := mt_sign P a b ct d k m' in
    hash_collision P d (verify_queries P d ct hsig m') forged \/ inverted P d ct (pairs os) hsig m' forged).
Proof.
  intros Hn0 Hg Hc Lsm Bsm Lmb Hop Hrc k msg forged.
  pose proof (pk_is_key r a b ct d Hf) as Hkey.
  assert (Hrt : firstn (r_n r) (skipn 4 (public_key r ct d)) = ct).
  { destruct Hf as [[La [Lb [Lc Ld]]] _]. unfold public_key. rewrite skipn_app_len by (now rewrite toByte_length). now apply firstn_app_len. }
  assert (Hsd : skipn (4 + r_n r) (public_key r ct d) = d).
  { destruct Hf as [[La [Lb [Lc Ld]]] _]. unfold public_key. rewrite app_assoc. apply skipn_app_len. rewrite app_length, toByte_length. lia. }
  assert (Hs : idx_size r + r_n r <= sig_size r) by (unfold sig_size, sp_sig_bytes, idx_size; change (sp_n P) with (r_n r); lia).
  assert (Hk : sig_index P (firstn (sig_size r) sm) = k).
  { unfold sig_index, k, sm_index. rewrite firstn_firstn. fold (idx_size r). now rewrite Nat.min_l by lia. }
  pose proof (accepted HE mt r Hr c mbuf mlen sm _ oo Hc Hkey Lsm Bsm Lmb Hop Hrc) as Hv. rewrite Hrt, Hsd in Hv.
  split.
  - intros Hge. apply out_of_range_collision; [rewrite firstn_length; lia|now apply bytes_ok_firstn|rewrite Hk; exact Hge|exact Hv].
  - intros Hlt m' Bm Hne Hm' hsig.
    assert (Lsg : length hsig = sig_size r) by (apply (mt_sign_len HE mt r Hr)).
    assert (HR : forall x, length x = sig_size r -> length (sig_R P x) = r_n r).
    { intros x Lx. unfold sig_R. rewrite firstn_length, skipn_length. change (sp_ib P) with (idx_size r). change (sp_n P) with (r_n r). lia. }
    destruct (in_range_forgery cs os c mbuf mlen sm oo Hn0 Hg Hc Lsm Bsm Lmb Hop Hrc Hlt m' Bm Hne Hm') as [Hy|Hy]; [left|right; exact Hy].
    apply (collision_hash P d Hn); [|transitivity k; [apply (honest_index k m' Hlt)|symmetry; exact Hk]|exact Hy].
    rewrite !HR; [reflexivity|rewrite firstn_length; lia|exact Lsg].
Qed.

(** one-time keys above the bottom layer *)
Lemma layer_part_honest i m l x : l < r_d r -> 
  firstn ((sp_len P + sp_th P) * r_n r) (skipn (idx_size r + r_n r + l * ((sp_len P + sp_th P) * r_n r)) (mt_sign P a b ct d i m ++ x))
  = layer_sig P a d (msg_hash i m) i l.
Proof.
  intros Hl. set (sz := (sp_len P + sp_th P) * r_n r).
  assert (Hlen : forall u k, length (concat (map (layer_sig P a d (msg_hash i m) i) (seq u k))) = k * sz).
  { intros u k. pose proof (layers_length (row_params r (sk_ref r)) _ (p_ok mt r Hr) (p_hash HE mt r Hr) a d (msg_hash i m) i u k) as Hx.
    rewrite (sp_of_row r (sk_ref r)) in Hx. rewrite Hx. f_equal. unfold layer_bytes, sz. rewrite row_n.
    rewrite <- (sp_of_row r (sk_ref r)), (sp_th_of _ _ (p_ok mt r Hr)), (sp_len_of _ _ (p_ok mt r Hr)). rewrite (po_wsig _ (p_ok mt r Hr)), row_n. lia. }
  unfold mt_sign. cbv zeta. fold (msg_hash i m). change (sp_d P) with (r_d r). replace (r_d r) with (l + (1 + (r_d r - l - 1))) by lia.
  rewrite seq_app, map_app, concat_app. rewrite seq_app, map_app, concat_app. cbn [seq map concat Nat.add]. rewrite app_nil_r.
  assert (HR : length (PRF P b (toByte i 32)) = r_n r) by (unfold PRF; exact (proj1 (Hn _))).
  pose proof (Hlen 0 l) as H1. pose proof (Hlen l 1) as H2. cbn [seq map concat] in H2. rewrite app_nil_r in H2.
  rewrite <- !app_assoc. 
  match goal with |- firstn _ (skipn _ (?A ++ ?B ++ ?C ++ ?D)) = _ => replace (A ++ B ++ C ++ D) with ((A ++ B ++ C) ++ D) by (rewrite <- !app_assoc; reflexivity) end.
  rewrite skipn_app_len by (rewrite !app_length, toByte_length, HR, H1; fold (idx_size r); lia).
  apply firstn_app_len. lia.
Qed.
Lemma one_value cs os i j oi oj l : gave cs os -> nth_error os i = Some oi -> nth_error os j = Some oj -> l < r_d r ->
  tree_of P (N.of_nat i) l = tree_of P (N.of_nat j) l -> leaf_of P (N.of_nat i) l = leaf_of P (N.of_nat j) l ->
  let part sm := firstn ((sp_len P + sp_th P) * r_n r) (skipn (idx_size r + r_n r + l * ((sp_len P + sp_th P) * r_n r)) sm) in
  part (signed_message oi) = part (signed_message oj).
Proof.
  intros Hg Hi Hj Hl Ht Hlf part. pose proof Hg as [Hlen Hnth].
  assert (Li : i < length cs) by (rewrite <- Hlen; apply nth_error_Some; congruence).
  assert (Lj : j < length cs) by (rewrite <- Hlen; apply nth_error_Some; congruence).
  destruct (nth_error cs i) as [xi|] eqn:Ei; [|apply nth_error_None in Ei; lia].
  destruct (nth_error cs j) as [xj|] eqn:Ej; [|apply nth_error_None in Ej; lia].
  pose proof (same_place P _ _ l Ht Hlf) as Hs.
  destruct l as [|l].
  - rewrite Nat.mul_0_r in Hs. change (2 ^ N.of_nat 0)%N with 1%N in Hs. rewrite !N.div_1_r in Hs. apply Nat2N.inj in Hs. subst j. congruence.
  - rewrite (Hnth i xi oi Ei Hi), (Hnth j xj oj Ej Hj). unfold part. rewrite !layer_part_honest by exact Hl.
    unfold layer_sig. cbn [layer_msg]. rewrite Ht, Hlf.
    assert (He : tree_of P (N.of_nat i) l = tree_of P (N.of_nat j) l) by (unfold tree_of; replace (l + 1) with (S l) by lia; exact Hs).
    now rewrite He.
Qed.
End Api.
