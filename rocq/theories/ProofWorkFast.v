(** Counting hash calls in the fast core: forgetting the counter gives back the model. *)
From Verif Require Import Base ModelUtils ModelParams ModelHash ModelWots ModelCommons ModelCore ModelCoreFast ModelXmss SpecApi ModelCost ProofCost ModelWork ProofWork ModelWorkFast.

Section WithEnv.
Context {E : Env}.
Ltac fw1 := match goal with
  | |- out (cloopN _ _ _) = loopN _ _ _ => apply out_loopN; intro
  | _ => ew1
  end.
Ltac fw := cbv zeta; repeat (fw1; cbv beta zeta).

Lemma fw_init_while p f : forall idx i ps st lv o s na, out (treehash_init_while_w p f idx i ps st lv o s na) = treehash_init_while p f idx i ps st lv o s na.
Proof. induction f as [|f IH]; intros; cbn [treehash_init_while_w treehash_init_while]; fw; try apply ew_thash_h; apply IH. Qed.
Lemma fw_init p h s sks ps sub : out (treehash_init_w p h s sks ps sub) = treehash_init p h s sks ps sub.
Proof. unfold treehash_init_w, treehash_init. fw; [apply ew_leaf|apply fw_init_while]. Qed.
Lemma fw_update_while p u : forall ni ps s o nd nh na, out (treehash_update_while_w p u ni ps s o nd nh na) = treehash_update_while p u ni ps s o nd nh na.
Proof. induction u as [|u IH]; intros; cbn [treehash_update_while_w treehash_update_while]; fw; try apply ew_thash_h; apply IH. Qed.
Lemma fw_update p j s sks ps sub : out (treehash_update_w p j s sks ps sub) = treehash_update p j s sks ps sub.
Proof. unfold treehash_update_w, treehash_update. fw; [apply ew_leaf|apply fw_update_while]. Qed.
Lemma fw_updates p s u sks ps sub : out (bds_treehash_update_w p s u sks ps sub) = bds_treehash_update p s u sks ps sub.
Proof. unfold bds_treehash_update_w, bds_treehash_update. fw. apply fw_update. Qed.
Lemma fw_state_while p f : forall idx ps s na, out (bds_state_update_while_w p f idx ps s na) = bds_state_update_while p f idx ps s na.
Proof. induction f as [|f IH]; intros; cbn [bds_state_update_while_w bds_state_update_while]; fw; try apply ew_thash_h; apply IH. Qed.
Lemma fw_state p s sks ps sub : out (bds_state_update_w p s sks ps sub) = bds_state_update p s sks ps sub.
Proof. unfold bds_state_update_w, bds_state_update. fw; [apply ew_leaf|apply fw_state_while]. Qed.
Lemma fw_round p s li sks ps sub : out (bds_round_w p s li sks ps sub) = bds_round p s li sks ps sub.
Proof. unfold bds_round_w, bds_round. fw; [apply ew_leaf|apply ew_thash_h]. Qed.
Lemma fw_keypair p pk sk r : out (fast_xmss_core_keypair_w p pk sk r) = fast_xmss_core_keypair p pk sk r.
Proof. unfold fast_xmss_core_keypair_w, fast_xmss_core_keypair. fw. apply fw_init. Qed.
Lemma fw_body p idx sk ss ws sm m : out (fast_sign_body_w p idx sk ss ws sm m) = fast_sign_body p idx sk ss ws sm m.
Proof. unfold fast_sign_body_w, fast_sign_body. fw; [apply ew_prf|apply ew_hash_message|apply ew_wsign|apply fw_round|apply fw_updates]. Qed.
Lemma fw_sign p sk sm smlen m : out (fast_xmss_core_sign_w p sk sm smlen m) = fast_xmss_core_sign p sk sm smlen m.
Proof. unfold fast_xmss_core_sign_w, fast_xmss_core_sign. fw; apply fw_body. Qed.
Lemma fw_mt_keypair p pk sk r : out (fast_xmssmt_core_keypair_w p pk sk r) = fast_xmssmt_core_keypair p pk sk r.
Proof. unfold fast_xmssmt_core_keypair_w, fast_xmssmt_core_keypair. fw; first [apply fw_init|apply ew_wsign]. Qed.
Lemma fw_layer p idx sks ps i v : out (mt_layer_step_w p idx sks ps i v) = mt_layer_step p idx sks ps i v.
Proof. unfold mt_layer_step_w, mt_layer_step. fw; [apply fw_round|apply fw_updates|apply fw_state|apply ew_wsign]. Qed.
Lemma fw_mt_body p idx sk ss ws sm m : out (fast_mt_sign_body_w p idx sk ss ws sm m) = fast_mt_sign_body p idx sk ss ws sm m.
Proof. unfold fast_mt_sign_body_w, fast_mt_sign_body. fw; [apply ew_prf|apply ew_hash_message|apply ew_wsign|apply fw_state|apply fw_layer]. Qed.
Lemma fw_mt_sign p sk sm smlen m : out (fast_xmssmt_core_sign_w p sk sm smlen m) = fast_xmssmt_core_sign p sk sm smlen m.
Proof. unfold fast_xmssmt_core_sign_w, fast_xmssmt_core_sign. fw; apply fw_mt_body. Qed.

Lemma work_fast_keypair mt pk sk oid rnd : out (fast_keypair_work mt pk sk oid rnd) = keypair mt fast_core pk sk oid rnd.
Proof.
  unfold fast_keypair_work, keypair. destruct mt; [rewrite (er_kw _ _ _ fast_xmssmt_core_keypair) by apply fw_mt_keypair|rewrite (er_kw _ _ _ fast_xmss_core_keypair) by apply fw_keypair]; reflexivity.
Qed.
Lemma work_fast_sign mt sk sm smlen m : out (fast_sign_work mt sk sm smlen m) = sign mt fast_core sk sm smlen m.
Proof.
  unfold fast_sign_work, sign. destruct mt; [rewrite (er_sw _ _ _ fast_xmssmt_core_sign) by apply fw_mt_sign|rewrite (er_sw _ _ _ fast_xmss_core_sign) by apply fw_sign]; reflexivity.
Qed.
End WithEnv.
