(** Observable traces: forgetting the trace gives back the model. *)
From Verif Require Import Base Lib ModelUtils ModelParams ModelHash ModelWots ModelCommons ModelCore ModelXmss SpecApi ModelLeak.

Lemma outcome_bind {A B} (c : leak A) (f : A -> leak B) : outcome (lbind c f) = bind (outcome c) (fun x => outcome (f x)).
Proof. unfold lbind, bind. now destruct (outcome c). Qed.
Lemma obind_eq {A B} (c c' : res A) (f f' : A -> res B) : c = c' -> (forall x, f x = f' x) -> bind c f = bind c' f'.
Proof. intros -> Hf. destruct c' as [x| |]; cbn [bind]; auto. Qed.
Lemma outcome_forN {S} (body : nat -> S -> leak S) body' : (forall i s, outcome (body i s) = body' i s) ->
  forall k i s, outcome (lforN k i body s) = forN k i body' s.
Proof.
  intros Hb. induction k as [|k IH]; intros i s; cbn [lforN forN]; [reflexivity|]. rewrite outcome_bind. cbn [outcome]. rewrite Hb.
  apply obind_eq; [reflexivity|]. intros x. apply IH.
Qed.
Lemma outcome_lif {A} b (c1 c2 : leak A) : outcome (lif b c1 c2) = if b then outcome c1 else outcome c2.
Proof. reflexivity. Qed.
Ltac lw1 := match goal with
  | |- ?x = ?x => reflexivity
  | |- outcome (silent ?x) = ?x => reflexivity
  | |- outcome (core_hash_l _ _) = _ => reflexivity
  | |- outcome (rd_l _ _ _) = _ => reflexivity
  | |- outcome (wr_l _ _ _) = _ => reflexivity
  | |- outcome (rdc_l _ _) = _ => reflexivity
  | |- outcome (wrc_l _ _ _) = _ => reflexivity
  | |- outcome (sign_chain _) = _ => cbn [sign_chain outcome]
  | |- outcome (lbind _ _) = bind _ _ => rewrite outcome_bind; apply obind_eq; [|intro]
  | |- outcome (lforN _ _ _ _) = forN _ _ _ _ => apply outcome_forN; do 2 intro
  | |- outcome (lif ?b _ _) = _ => rewrite outcome_lif; destruct b
  | |- outcome (if ?b then _ else _) = _ => destruct b
  | |- outcome (match ?x with _ => _ end) = _ => destruct x
  end.
Ltac lw := cbv zeta; repeat (lw1; cbv beta zeta).

Section WithEnv.
Context {E : Env}.

Lemma lw_prf p i k : outcome (prf_l p i k) = prf p i k.
Proof. unfold prf_l, prf. lw. Qed.
Lemma lw_prf_keygen p i k : outcome (prf_keygen_l p i k) = prf_keygen p i k.
Proof. unfold prf_keygen_l, prf_keygen. lw. Qed.
Lemma lw_hash_message p R R' rt idx b o l : (forall x, outcome (R x) = R' x) -> outcome (hash_message_l p R rt idx b o l) = hash_message p R' rt idx b o l.
Proof. intros HR. unfold hash_message_l, hash_message. lw. apply HR. Qed.
Lemma lw_thash_h p i s a : outcome (thash_h_l p i s a) = thash_h p i s a.
Proof. unfold thash_h_l, thash_h. lw; apply lw_prf. Qed.
Lemma lw_thash_f p i s a : outcome (thash_f_l p i s a) = thash_f p i s a.
Proof. unfold thash_f_l, thash_f. lw; apply lw_prf. Qed.
Lemma lw_expand p i s a : outcome (expand_seed_l p i s a) = expand_seed p i s a.
Proof. unfold expand_seed_l, expand_seed. lw; apply lw_prf_keygen. Qed.
Lemma lw_chain_loop p k : forall i o s a, outcome (gen_chain_loop_l p k i o s a) = gen_chain_loop p k i o s a.
Proof.
  induction k as [|k IH]; intros i o s a; cbn [gen_chain_loop_l gen_chain_loop]; [reflexivity|].
  lw; [apply lw_thash_f|apply IH].
Qed.
Lemma lw_chain p x i k s a : outcome (gen_chain_l p x i k s a) = gen_chain p x i k s a.
Proof. unfold gen_chain_l, gen_chain. lw. apply lw_chain_loop. Qed.
Lemma lw_basew p k : forall i ix t b, outcome (base_w_loop_l p k i ix t b) = base_w_loop p k i ix t b.
Proof.
  induction k as [|k IH]; intros i ix t b; cbn [base_w_loop_l base_w_loop]; [reflexivity|]. lw. apply IH.
Qed.
Lemma lw_csum p l : outcome (wots_checksum_l p l) = wots_checksum p l.
Proof. unfold wots_checksum_l, wots_checksum. rewrite outcome_bind. cbn [outcome bind]. apply lw_basew. Qed.
Lemma lw_lengths p m : outcome (chain_lengths_l p m) = chain_lengths p m.
Proof. unfold chain_lengths_l, chain_lengths. lw; [apply lw_basew|apply lw_csum]. Qed.
Lemma lw_pkgen p i s a : outcome (wots_pkgen_l p i s a) = wots_pkgen p i s a.
Proof. unfold wots_pkgen_l, wots_pkgen. lw; [apply lw_expand|apply lw_chain]. Qed.
Lemma lw_wsign p m i s a : outcome (wots_sign_l p m i s a) = wots_sign p m i s a.
Proof. unfold wots_sign_l, wots_sign. lw; [apply lw_lengths|apply lw_expand|apply lw_chain]. Qed.
Lemma lw_ltl p f : forall l h w s a, outcome (l_tree_loop_l p f l h w s a) = l_tree_loop p f l h w s a.
Proof.
  induction f as [|f IH]; intros l h w s a; cbn [l_tree_loop_l l_tree_loop]; lw; try apply lw_thash_h; apply IH.
Qed.
Lemma lw_lt p w s a : outcome (l_tree_l p w s a) = l_tree p w s a.
Proof. unfold l_tree_l, l_tree. lw. apply lw_ltl. Qed.
Lemma lw_leaf p sks s la oa : outcome (gen_leaf_wots_l p sks s la oa) = gen_leaf_wots p sks s la oa.
Proof. unfold gen_leaf_wots_l, gen_leaf_wots. lw; [apply lw_pkgen|apply lw_lt]. Qed.
Lemma lw_while p f : forall idx li s st hs o ab ao na, outcome (treehash_while_l p f idx li s st hs o ab ao na) = treehash_while p f idx li s st hs o ab ao na.
Proof.
  induction f as [|f IH]; intros idx li s st hs o ab ao na; cbn [treehash_while_l treehash_while]; lw; try apply lw_thash_h; apply IH.
Qed.
Lemma lw_treehash p ab ao sks ps li sub : outcome (treehash_l p ab ao sks ps li sub) = treehash p ab ao sks ps li sub.
Proof. unfold treehash_l, treehash. lw; [apply lw_leaf|apply lw_while]. Qed.
Lemma lw_seed_keypair p pk sk seed : outcome (xmssmt_core_seed_keypair_l p pk sk seed) = xmssmt_core_seed_keypair p pk sk seed.
Proof. unfold xmssmt_core_seed_keypair_l, xmssmt_core_seed_keypair. lw. apply lw_treehash. Qed.
Lemma lw_ref_keypair p pk sk r : outcome (ref_xmssmt_core_keypair_l p pk sk r) = ref_xmssmt_core_keypair p pk sk r.
Proof. unfold ref_xmssmt_core_keypair_l, ref_xmssmt_core_keypair. lw. apply lw_seed_keypair. Qed.
Lemma lw_ref_body p idx sk sm smlen mlen : outcome (ref_sign_body_l p idx sk sm smlen mlen) = ref_sign_body p idx sk sm smlen mlen.
Proof. unfold ref_sign_body_l, ref_sign_body. lw; [apply lw_prf|apply lw_hash_message; reflexivity|apply lw_wsign|apply lw_treehash]. Qed.
Lemma lw_ref_sign p sk sm smlen m : outcome (ref_xmssmt_core_sign_l p sk sm smlen m) = ref_xmssmt_core_sign p sk sm smlen m.
Proof. unfold ref_xmssmt_core_sign_l, ref_xmssmt_core_sign. lw; apply lw_ref_body. Qed.

Lemma lw_kw parse skb kp kp' pk sk oid rnd : (forall p a b r, outcome (kp p a b r) = kp' p a b r) ->
  outcome (keypair_wrapper_l parse skb kp pk sk oid rnd) = keypair_wrapper parse skb kp' pk sk oid rnd.
Proof. intros Hk. unfold keypair_wrapper_l, keypair_wrapper. lw. apply Hk. Qed.
Lemma lw_sw parse skb sg sg' sk sm smlen m : (forall p a b c d, outcome (sg p a b c d) = sg' p a b c d) ->
  outcome (sign_wrapper_l parse skb sg sk sm smlen m) = sign_wrapper parse skb sg' sk sm smlen m.
Proof. intros Hk. unfold sign_wrapper_l, sign_wrapper. lw. apply Hk. Qed.
Lemma seen_keypair mt pk sk oid rnd : outcome (ref_keypair_seen mt pk sk oid rnd) = keypair mt ref_core pk sk oid rnd.
Proof. unfold ref_keypair_seen, keypair. destruct mt; rewrite (lw_kw _ _ _ ref_xmssmt_core_keypair) by apply lw_ref_keypair; reflexivity. Qed.
Lemma seen_sign mt sk sm smlen m : outcome (ref_sign_seen mt sk sm smlen m) = sign mt ref_core sk sm smlen m.
Proof. unfold ref_sign_seen, sign. destruct mt; rewrite (lw_sw _ _ _ ref_xmssmt_core_sign) by apply lw_ref_sign; reflexivity. Qed.
End WithEnv.
