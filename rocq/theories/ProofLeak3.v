(** Observable traces of the fast core: forgetting the trace gives back the model. *)
From Verif Require Import Base Lib ModelUtils ModelParams ModelHash ModelWots ModelCommons ModelCore ModelCoreFast ModelXmss SpecApi ModelLeak ModelLeakFast ProofLeak.

Lemma outcome_loop_pos {S} (body : S -> leak (S * bool)) body' : (forall s, outcome (body s) = body' s) ->
  forall k s, outcome (lloop_pos k body s) = loop_pos k body' s.
Proof.
  intros Hb. induction k as [q IH|q IH|]; intros s; cbn [lloop_pos loop_pos]; [| |apply Hb].
  - rewrite outcome_bind, Hb. apply obind_eq; [reflexivity|]. intros [s1 []]; [reflexivity|]. rewrite outcome_bind, IH. apply obind_eq; [reflexivity|]. intros [s2 []]; [reflexivity|apply IH].
  - rewrite outcome_bind, IH. apply obind_eq; [reflexivity|]. intros [s2 []]; [reflexivity|apply IH].
Qed.
Lemma outcome_loopN {S} (body : S -> leak (S * bool)) body' : (forall s, outcome (body s) = body' s) ->
  forall k s, outcome (lloopN k body s) = loopN k body' s.
Proof. intros Hb [|q] s; [reflexivity|]. now apply outcome_loop_pos. Qed.
Section WithEnv.
Context {E : Env}.
Lemma lf_load_th p sk o : outcome (load_th_l p sk o) = load_th p sk o.
Proof. unfold load_th_l, load_th. lw. Qed.
Lemma lf_load_state p sk o : outcome (load_state_l p sk o) = load_state p sk o.
Proof. unfold load_state_l, load_state. lw. apply lf_load_th. Qed.
Lemma lf_deser p sk : outcome (xmssmt_deserialize_state_l p sk) = xmssmt_deserialize_state p sk.
Proof. unfold xmssmt_deserialize_state_l, xmssmt_deserialize_state. lw. apply lf_load_state. Qed.
Lemma lf_ser p sk ss ws : outcome (xmssmt_serialize_state_l p sk ss ws) = xmssmt_serialize_state p sk ss ws.
Proof. reflexivity. Qed.
Lemma lf_min p s t : outcome (treehash_minheight_on_stack_l p s t) = treehash_minheight_on_stack p s t.
Proof. unfold treehash_minheight_on_stack_l, treehash_minheight_on_stack. lw. Qed.
Lemma lf_place p s i h x : outcome (place_node_l p s i h x) = place_node p s i h x.
Proof. unfold place_node_l, place_node. lw. Qed.
Lemma lf_init_while p g : forall idx i ps st lv o s a, outcome (treehash_init_while_l p g idx i ps st lv o s a) = treehash_init_while p g idx i ps st lv o s a.
Proof. induction g as [|g IH]; intros; cbn [treehash_init_while_l treehash_init_while]; lw; try apply lf_place; try apply lw_thash_h; apply IH. Qed.
Lemma lf_init p h s a b c : outcome (treehash_init_l p h s a b c) = treehash_init p h s a b c.
Proof. unfold treehash_init_l, treehash_init. lw; [apply lw_leaf|apply lf_init_while]. Qed.
Lemma lf_upd_while p u : forall nx ps s o nd nh a, outcome (treehash_update_while_l p u nx ps s o nd nh a) = treehash_update_while p u nx ps s o nd nh a.
Proof. induction u as [|u IH]; intros; cbn [treehash_update_while_l treehash_update_while]; lw; try apply lw_thash_h; apply IH. Qed.
Lemma lf_update p j s a b c : outcome (treehash_update_l p j s a b c) = treehash_update p j s a b c.
Proof. unfold treehash_update_l, treehash_update. lw; [apply lw_leaf|apply lf_upd_while]. Qed.
Lemma lf_select p s : outcome (select_treehash_l p s) = select_treehash p s.
Proof. unfold select_treehash_l, select_treehash. lw. apply lf_min. Qed.
Lemma lf_bds_update p s u a b c : outcome (bds_treehash_update_l p s u a b c) = bds_treehash_update p s u a b c.
Proof.
  unfold bds_treehash_update_l, bds_treehash_update. rewrite outcome_bind. apply obind_eq; [|intros [[? ?] ?]; reflexivity].
  apply outcome_loopN. intros [s1 u1]. rewrite outcome_bind. apply obind_eq; [apply lf_select|]. intros sel. rewrite outcome_bind. cbn [outcome bind].
  destruct sel; lw. apply lf_update.
Qed.
Lemma lf_state_while p g : forall idx ps s a, outcome (bds_state_update_while_l p g idx ps s a) = bds_state_update_while p g idx ps s a.
Proof. induction g as [|g IH]; intros; cbn [bds_state_update_while_l bds_state_update_while]; lw; try apply lf_place; try apply lw_thash_h; apply IH. Qed.
Lemma lf_state_update p s a b c : outcome (bds_state_update_l p s a b c) = bds_state_update p s a b c.
Proof. unfold bds_state_update_l, bds_state_update. lw; [apply lw_leaf|apply lf_state_while]. Qed.
Lemma lf_round p s l a b c : outcome (bds_round_l p s l a b c) = bds_round p s l a b c.
Proof. unfold bds_round_l, bds_round. lw; first [apply lw_leaf|apply lw_thash_h]. Qed.
Lemma lf_keypair p pk sk r : outcome (fast_xmss_core_keypair_l p pk sk r) = fast_xmss_core_keypair p pk sk r.
Proof. unfold fast_xmss_core_keypair_l, fast_xmss_core_keypair. lw; first [apply lf_deser|apply lf_init|apply lf_ser]. Qed.
Lemma lf_body p idx sk ss ws sm m : outcome (fast_sign_body_l p idx sk ss ws sm m) = fast_sign_body p idx sk ss ws sm m.
Proof. unfold fast_sign_body_l, fast_sign_body. lw; first [apply lf_ser|apply lw_prf|apply lw_wsign|apply lf_round|apply lf_bds_update|apply lw_hash_message; reflexivity]. Qed.
Lemma lf_sign p sk sm smlen m : outcome (fast_xmss_core_sign_l p sk sm smlen m) = fast_xmss_core_sign p sk sm smlen m.
Proof. unfold fast_xmss_core_sign_l, fast_xmss_core_sign. lw; first [apply lf_deser|apply lf_body]. Qed.
Lemma lf_mt_keypair p pk sk r : outcome (fast_xmssmt_core_keypair_l p pk sk r) = fast_xmssmt_core_keypair p pk sk r.
Proof. unfold fast_xmssmt_core_keypair_l, fast_xmssmt_core_keypair. lw; first [apply lf_deser|apply lf_init|apply lw_wsign|apply lf_ser]. Qed.
Lemma lf_swap ss a b : outcome (deep_state_swap_l ss a b) = deep_state_swap ss a b.
Proof. unfold deep_state_swap_l, deep_state_swap. lw. Qed.
Lemma lf_step p idx a b i v : outcome (mt_layer_step_l p idx a b i v) = mt_layer_step p idx a b i v.
Proof. unfold mt_layer_step_l, mt_layer_step. lw; first [apply lf_round|apply lf_bds_update|apply lf_state_update|apply lf_swap|apply lw_wsign]. Qed.
Lemma lf_mt_body p idx sk ss ws sm m : outcome (fast_mt_sign_body_l p idx sk ss ws sm m) = fast_mt_sign_body p idx sk ss ws sm m.
Proof. unfold fast_mt_sign_body_l, fast_mt_sign_body. lw; first [apply lf_ser|apply lw_prf|apply lw_wsign|apply lf_state_update|apply lf_step|apply lw_hash_message; reflexivity]. Qed.
Lemma lf_mt_sign p sk sm smlen m : outcome (fast_xmssmt_core_sign_l p sk sm smlen m) = fast_xmssmt_core_sign p sk sm smlen m.
Proof. unfold fast_xmssmt_core_sign_l, fast_xmssmt_core_sign. lw; first [apply lf_deser|apply lf_mt_body]. Qed.
Lemma seen_fast_keypair mt pk sk oid rnd : outcome (fast_keypair_seen mt pk sk oid rnd) = keypair mt fast_core pk sk oid rnd.
Proof. unfold fast_keypair_seen, keypair. destruct mt; [rewrite (lw_kw _ _ _ fast_xmssmt_core_keypair) by apply lf_mt_keypair|rewrite (lw_kw _ _ _ fast_xmss_core_keypair) by apply lf_keypair]; reflexivity. Qed.
Lemma seen_fast_sign mt sk sm smlen m : outcome (fast_sign_seen mt sk sm smlen m) = sign mt fast_core sk sm smlen m.
Proof. unfold fast_sign_seen, sign. destruct mt; [rewrite (lw_sw _ _ _ fast_xmssmt_core_sign) by apply lf_mt_sign|rewrite (lw_sw _ _ _ fast_xmss_core_sign) by apply lf_sign]; reflexivity. Qed.
End WithEnv.
