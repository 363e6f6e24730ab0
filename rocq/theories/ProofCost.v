(** Counting leaves: forgetting the counter gives back the model; bounds on the counter. *)
From Verif Require Import Base ModelUtils ModelParams ModelHash ModelWots ModelCommons ModelCore ModelCoreFast ModelXmss ModelCost.

(** ** Forgetting the counter *)
Lemma out_bind {A B} (c : cost A) (f : A -> cost B) : out (cbind c f) = bind (out c) (fun x => out (f x)).
Proof. unfold cbind. destruct (out c); reflexivity. Qed.
Lemma bind_eq {A B} (a b : res A) (f g : A -> res B) : a = b -> (forall x, f x = g x) -> bind a f = bind b g.
Proof. intros -> Hfg. destruct b; cbn; auto. Qed.
Lemma out_forN {S} k : forall i (body : nat -> S -> cost S) (body' : nat -> S -> res S) s,
  (forall i s, out (body i s) = body' i s) -> out (cforN k i body s) = forN k i body' s.
Proof.
  induction k as [|k IH]; intros i body body' s Hb; [reflexivity|]. cbn [cforN forN]. rewrite out_bind.
  apply bind_eq; [apply Hb|]. intros x. now apply IH.
Qed.
Lemma out_loop {S} k : forall (body : S -> cost (S * bool)) (body' : S -> res (S * bool)) s,
  (forall s, out (body s) = body' s) -> out (cloop_pos k body s) = loop_pos k body' s.
Proof.
  induction k as [q IH|q IH|]; intros body body' s Hb; cbn [cloop_pos loop_pos]; [| |apply Hb].
  - rewrite out_bind. apply bind_eq; [apply Hb|]. intros [s1 [|]]; [reflexivity|]. rewrite out_bind.
    apply bind_eq; [now apply IH|]. intros [s2 [|]]; [reflexivity|]. now apply IH.
  - rewrite out_bind. apply bind_eq; [now apply IH|]. intros [s2 [|]]; [reflexivity|]. now apply IH.
Qed.
Lemma out_loopN {S} k (body : S -> cost (S * bool)) (body' : S -> res (S * bool)) s :
  (forall s, out (body s) = body' s) -> out (cloopN k body s) = loopN k body' s.
Proof. intros Hb. destruct k as [|q]; [reflexivity|]. now apply out_loop. Qed.

Ltac er1 := match goal with
  | |- ?x = ?x => reflexivity
  | |- out (free ?x) = ?x => reflexivity
  | |- out (gen_leaf_wots_c _ _ _ _ _) = _ => reflexivity
  | |- out (cbind _ _) = bind _ _ => rewrite out_bind; apply bind_eq; [|intro]
  | |- out (cforN _ _ _ _) = forN _ _ _ _ => apply out_forN; do 2 intro
  | |- out (cloopN _ _ _) = loopN _ _ _ => apply out_loopN; intro
  | |- out (if ?b then _ else _) = _ => destruct b
  | |- out (match ?x with _ => _ end) = _ => destruct x
  end.
Ltac er := cbv zeta; repeat (er1; cbv beta zeta).

Section WithEnv.
Context {E : Env}.

Lemma er_treehash p ab ao sks ps li sub : out (treehash_c p ab ao sks ps li sub) = treehash p ab ao sks ps li sub.
Proof. unfold treehash_c, treehash. er. Qed.
Lemma er_seed_keypair p pk sk seed : out (xmssmt_core_seed_keypair_c p pk sk seed) = xmssmt_core_seed_keypair p pk sk seed.
Proof. unfold xmssmt_core_seed_keypair_c, xmssmt_core_seed_keypair. er. apply er_treehash. Qed.
Lemma er_ref_keypair p pk sk r : out (ref_xmssmt_core_keypair_c p pk sk r) = ref_xmssmt_core_keypair p pk sk r.
Proof. unfold ref_xmssmt_core_keypair_c, ref_xmssmt_core_keypair. er. apply er_seed_keypair. Qed.
Lemma er_ref_body p idx sk sm smlen mlen : out (ref_sign_body_c p idx sk sm smlen mlen) = ref_sign_body p idx sk sm smlen mlen.
Proof. unfold ref_sign_body_c, ref_sign_body. er. apply er_treehash. Qed.
Lemma er_ref_sign p sk sm smlen m : out (ref_xmssmt_core_sign_c p sk sm smlen m) = ref_xmssmt_core_sign p sk sm smlen m.
Proof. unfold ref_xmssmt_core_sign_c, ref_xmssmt_core_sign. er; apply er_ref_body. Qed.

Lemma er_init p h s sks ps sub : out (treehash_init_c p h s sks ps sub) = treehash_init p h s sks ps sub.
Proof. unfold treehash_init_c, treehash_init. er. Qed.
Lemma er_update p j s sks ps sub : out (treehash_update_c p j s sks ps sub) = treehash_update p j s sks ps sub.
Proof. unfold treehash_update_c, treehash_update. er. Qed.
Lemma er_updates p s u sks ps sub : out (bds_treehash_update_c p s u sks ps sub) = bds_treehash_update p s u sks ps sub.
Proof. unfold bds_treehash_update_c, bds_treehash_update. er. apply er_update. Qed.
Lemma er_state p s sks ps sub : out (bds_state_update_c p s sks ps sub) = bds_state_update p s sks ps sub.
Proof. unfold bds_state_update_c, bds_state_update. er. Qed.
Lemma er_round p s li sks ps sub : out (bds_round_c p s li sks ps sub) = bds_round p s li sks ps sub.
Proof. unfold bds_round_c, bds_round. er. Qed.
Lemma er_fast_keypair p pk sk r : out (fast_xmss_core_keypair_c p pk sk r) = fast_xmss_core_keypair p pk sk r.
Proof. unfold fast_xmss_core_keypair_c, fast_xmss_core_keypair. er. apply er_init. Qed.
Lemma er_fast_body p idx sk ss ws sm m : out (fast_sign_body_c p idx sk ss ws sm m) = fast_sign_body p idx sk ss ws sm m.
Proof. unfold fast_sign_body_c, fast_sign_body. er; [apply er_round|apply er_updates]. Qed.
Lemma er_fast_sign p sk sm smlen m : out (fast_xmss_core_sign_c p sk sm smlen m) = fast_xmss_core_sign p sk sm smlen m.
Proof. unfold fast_xmss_core_sign_c, fast_xmss_core_sign. er; apply er_fast_body. Qed.
Lemma er_mt_keypair p pk sk r : out (fast_xmssmt_core_keypair_c p pk sk r) = fast_xmssmt_core_keypair p pk sk r.
Proof. unfold fast_xmssmt_core_keypair_c, fast_xmssmt_core_keypair. er; apply er_init. Qed.
Lemma er_layer p idx sks ps i v : out (mt_layer_step_c p idx sks ps i v) = mt_layer_step p idx sks ps i v.
Proof. unfold mt_layer_step_c, mt_layer_step. er; [apply er_round|apply er_updates|apply er_state]. Qed.
Lemma er_mt_body p idx sk ss ws sm m : out (fast_mt_sign_body_c p idx sk ss ws sm m) = fast_mt_sign_body p idx sk ss ws sm m.
Proof. unfold fast_mt_sign_body_c, fast_mt_sign_body. er; [apply er_state|apply er_layer]. Qed.
Lemma er_mt_sign p sk sm smlen m : out (fast_xmssmt_core_sign_c p sk sm smlen m) = fast_xmssmt_core_sign p sk sm smlen m.
Proof. unfold fast_xmssmt_core_sign_c, fast_xmssmt_core_sign. er; apply er_mt_body. Qed.

Lemma er_kw parse skb kp kp' pk sk oid r : (forall p pk sk r, out (kp p pk sk r) = kp' p pk sk r) ->
  out (keypair_wrapper_c parse skb kp pk sk oid r) = keypair_wrapper parse skb kp' pk sk oid r.
Proof. intros Hk. unfold keypair_wrapper_c, keypair_wrapper. er. apply Hk. Qed.
Lemma er_sw parse skb sg sg' sk sm smlen m : (forall p sk sm smlen m, out (sg p sk sm smlen m) = sg' p sk sm smlen m) ->
  out (sign_wrapper_c parse skb sg sk sm smlen m) = sign_wrapper parse skb sg' sk sm smlen m.
Proof. intros Hk. unfold sign_wrapper_c, sign_wrapper. er. apply Hk. Qed.

End WithEnv.
