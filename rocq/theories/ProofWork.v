(** Counting hash calls: forgetting the counter gives back the model. *)
From Verif Require Import Base ModelUtils ModelParams ModelHash ModelWots ModelCommons ModelCore ModelXmss SpecApi ModelCost ProofCost ModelWork.

Ltac ew1 := match goal with
  | |- ?x = ?x => reflexivity
  | |- out (free ?x) = ?x => reflexivity
  | |- out (core_hash_w _ _) = _ => reflexivity
  | |- out (cbind _ _) = bind _ _ => rewrite out_bind; apply bind_eq; [|intro]
  | |- out (cforN _ _ _ _) = forN _ _ _ _ => apply out_forN; do 2 intro
  | |- out (if ?b then _ else _) = _ => destruct b
  | |- out (match ?x with _ => _ end) = _ => destruct x
  end.
Ltac ew := cbv zeta; repeat (ew1; cbv beta zeta).

Section WithEnv.
Context {E : Env}.

Lemma ew_prf p i k : out (prf_w p i k) = prf p i k.
Proof. unfold prf_w, prf. ew. Qed.
Lemma ew_prf_keygen p i k : out (prf_keygen_w p i k) = prf_keygen p i k.
Proof. unfold prf_keygen_w, prf_keygen. ew. Qed.
Lemma ew_hash_message p R rt idx b o l : out (hash_message_w p R rt idx b o l) = hash_message p R rt idx b o l.
Proof. unfold hash_message_w, hash_message. ew. Qed.
Lemma ew_thash_h p i s a : out (thash_h_w p i s a) = thash_h p i s a.
Proof. unfold thash_h_w, thash_h. ew; apply ew_prf. Qed.
Lemma ew_thash_f p i s a : out (thash_f_w p i s a) = thash_f p i s a.
Proof. unfold thash_f_w, thash_f. ew; apply ew_prf. Qed.
Lemma ew_expand p i s a : out (expand_seed_w p i s a) = expand_seed p i s a.
Proof. unfold expand_seed_w, expand_seed. ew; apply ew_prf_keygen. Qed.
Lemma ew_chain_loop p k : forall i o s a, out (gen_chain_loop_w p k i o s a) = gen_chain_loop p k i o s a.
Proof.
  induction k as [|k IH]; intros i o s a; cbn [gen_chain_loop_w gen_chain_loop]; [reflexivity|].
  ew; [apply ew_thash_f|apply IH].
Qed.
Lemma ew_chain p x i k s a : out (gen_chain_w p x i k s a) = gen_chain p x i k s a.
Proof. unfold gen_chain_w, gen_chain. ew. apply ew_chain_loop. Qed.
Lemma ew_pkgen p i s a : out (wots_pkgen_w p i s a) = wots_pkgen p i s a.
Proof. unfold wots_pkgen_w, wots_pkgen. ew; [apply ew_expand|apply ew_chain]. Qed.
Lemma ew_wsign p m i s a : out (wots_sign_w p m i s a) = wots_sign p m i s a.
Proof. unfold wots_sign_w, wots_sign. ew; [apply ew_expand|apply ew_chain]. Qed.
Lemma ew_pkfs p g m s a : out (wots_pk_from_sig_w p g m s a) = wots_pk_from_sig p g m s a.
Proof. unfold wots_pk_from_sig_w, wots_pk_from_sig. ew; apply ew_chain. Qed.
Lemma ew_ltl p f : forall l h w s a, out (l_tree_loop_w p f l h w s a) = l_tree_loop p f l h w s a.
Proof.
  induction f as [|f IH]; intros l h w s a; cbn [l_tree_loop_w l_tree_loop]; ew; try apply ew_thash_h; apply IH.
Qed.
Lemma ew_lt p w s a : out (l_tree_w p w s a) = l_tree p w s a.
Proof. unfold l_tree_w, l_tree. ew. apply ew_ltl. Qed.
Lemma ew_root p lf li ab ao s a : out (compute_root_w p lf li ab ao s a) = compute_root p lf li ab ao s a.
Proof. unfold compute_root_w, compute_root. ew; apply ew_thash_h. Qed.
Lemma ew_leaf p sks s la oa : out (gen_leaf_wots_w p sks s la oa) = gen_leaf_wots p sks s la oa.
Proof. unfold gen_leaf_wots_w, gen_leaf_wots. ew; [apply ew_pkgen|apply ew_lt]. Qed.
Lemma ew_core_open p m sm pk : out (xmssmt_core_sign_open_w p m sm pk) = xmssmt_core_sign_open p m sm pk.
Proof. unfold xmssmt_core_sign_open_w, xmssmt_core_sign_open. ew; [apply ew_hash_message|apply ew_pkfs|apply ew_lt|apply ew_root]. Qed.
Lemma ew_while p f : forall idx li s st hs o ab ao na, out (treehash_while_w p f idx li s st hs o ab ao na) = treehash_while p f idx li s st hs o ab ao na.
Proof.
  induction f as [|f IH]; intros idx li s st hs o ab ao na; cbn [treehash_while_w treehash_while]; ew; try apply ew_thash_h; apply IH.
Qed.
Lemma ew_treehash p ab ao sks ps li sub : out (treehash_w p ab ao sks ps li sub) = treehash p ab ao sks ps li sub.
Proof. unfold treehash_w, treehash. ew; [apply ew_leaf|apply ew_while]. Qed.
Lemma ew_seed_keypair p pk sk seed : out (xmssmt_core_seed_keypair_w p pk sk seed) = xmssmt_core_seed_keypair p pk sk seed.
Proof. unfold xmssmt_core_seed_keypair_w, xmssmt_core_seed_keypair. ew. apply ew_treehash. Qed.
Lemma ew_ref_keypair p pk sk r : out (ref_xmssmt_core_keypair_w p pk sk r) = ref_xmssmt_core_keypair p pk sk r.
Proof. unfold ref_xmssmt_core_keypair_w, ref_xmssmt_core_keypair. ew. apply ew_seed_keypair. Qed.
Lemma ew_ref_body p idx sk sm smlen mlen : out (ref_sign_body_w p idx sk sm smlen mlen) = ref_sign_body p idx sk sm smlen mlen.
Proof. unfold ref_sign_body_w, ref_sign_body. ew; [apply ew_prf|apply ew_hash_message|apply ew_wsign|apply ew_treehash]. Qed.
Lemma ew_ref_sign p sk sm smlen m : out (ref_xmssmt_core_sign_w p sk sm smlen m) = ref_xmssmt_core_sign p sk sm smlen m.
Proof. unfold ref_xmssmt_core_sign_w, ref_xmssmt_core_sign. ew; apply ew_ref_body. Qed.

Lemma work_keypair mt pk sk oid rnd : out (ref_keypair_work mt pk sk oid rnd) = keypair mt ref_core pk sk oid rnd.
Proof. unfold ref_keypair_work, keypair. destruct mt; rewrite (er_kw _ _ _ ref_xmssmt_core_keypair) by apply ew_ref_keypair; reflexivity. Qed.
Lemma work_sign mt sk sm smlen m : out (ref_sign_work mt sk sm smlen m) = sign mt ref_core sk sm smlen m.
Proof. unfold ref_sign_work, sign. destruct mt; rewrite (er_sw _ _ _ ref_xmssmt_core_sign) by apply ew_ref_sign; reflexivity. Qed.
Lemma work_open mt c m mlen sm pk : out (open_work mt c m mlen sm pk) = sign_open mt c m mlen sm pk.
Proof. unfold open_work, sign_open, xmss_sign_open, xmssmt_sign_open, open_wrapper_w, open_wrapper. destruct mt; ew; apply ew_core_open. Qed.
End WithEnv.
