(** A successful signature of the fast core: the leaves of C71, and the message, the randomness and the chains on top. *)
From Coq Require Import ZArith.
From Verif Require Import Base Lib SpecRfc SpecFips202 SpecParams SpecApi SpecComp SpecFast SpecCost SpecWork ModelUtils ModelParams ModelHash ModelWots ModelCommons ModelCore ModelCoreFast ModelXmss.
From Verif Require Import ProofUtils ProofHash ProofCore ProofParams ProofApi ProofHistory ProofMain.
From Verif Require Import ProofSched ProofBds1 ProofFast1 ProofFast2 ProofFast3 ProofFast4 ProofFast5 ProofFast6 ProofFast7 ProofMt1 ProofMt2 ProofMt4 ProofMt5 ProofMt6 ProofMt7.
From Verif Require Import ModelCost ProofCost ProofCost2 ProofCost3 ProofCost4 ProofCost5 ModelWork ProofWork ProofWork2 ProofWork3 ProofWork5 ModelWorkFast ProofWorkFast ProofWorkFast2 ProofWorkFast3 ProofWorkFast4.


(** [dom], and [a] more *)
Definition domx {A} (k a : N) (c w : cost A) : Prop := out w = out c /\ forall x, out c = Ok x -> (k * count c + a <= count w)%N.
Lemma dx_dom {A} k (c w : cost A) : dom k c w -> domx k 0 c w.
Proof. intros [H1 H2]. split; [exact H1|]. intros x Hx. rewrite N.add_0_r. exact (H2 x Hx). Qed.
Lemma dx_bind {A B} k a b (c w : cost A) (f g : A -> cost B) : domx k a c w -> (forall x, domx k b (f x) (g x)) -> domx k (a + b) (cbind c f) (cbind w g).
Proof.
  intros [H1 H2] Hf. unfold cbind. rewrite H1. destruct (out c) as [x| |] eqn:Ec; [|split; [reflexivity|discriminate]..].
  destruct (Hf x) as [G1 G2]. split; [exact G1|]. cbn [out count]. intros y Hy. specialize (H2 x eq_refl). specialize (G2 y Hy). rewrite N.mul_add_distr_l. lia.
Qed.
Lemma dx_free {A B} k b (r : res A) (f g : A -> cost B) : (forall x, domx k b (f x) (g x)) -> domx k b (cbind (free r) f) (cbind (free r) g).
Proof. intros Hf. change b with (0 + b)%N. apply dx_bind; [|exact Hf]. apply dx_dom, dom_free. reflexivity. Qed.
Lemma dx_ub {A} k b : domx k b (free (@UB A)) (free UB).
Proof. split; [reflexivity|discriminate]. Qed.
Lemma dx_runs {A} k a (r : res A) (w : cost A) K : out w = r -> runs w K (fun _ l => a <= l)%N -> domx k a (free r) w.
Proof. intros Hw [_ H]. split; [exact Hw|]. intros x Hx. cbn [out count free] in *. rewrite N.mul_0_r. apply (H x). now rewrite Hw. Qed.

(** successful answers *)
Definition domz (k a : N) (c w : cost sign_out) : Prop :=
  out w = out c /\ forall o, out c = Ok o -> so_rc o = 0%Z -> (k * count c + a <= count w)%N.
Lemma dz_free {A} k b (r : res A) (f g : A -> cost sign_out) : (forall x, domz k b (f x) (g x)) -> domz k b (cbind (free r) f) (cbind (free r) g).
Proof.
  intros Hf. unfold cbind. cbn [out free]. destruct r as [x| |]; [|split; [reflexivity|discriminate]..].
  destruct (Hf x) as [G1 G2]. split; [exact G1|]. cbn [out count free]. intros y Hy Hz. exact (G2 y Hy Hz).
Qed.
Lemma dz_ref k b sk sm l : domz k b (free (Ok (mkSign (-2) sk sm l))) (free (Ok (mkSign (-2) sk sm l))).
Proof. split; [reflexivity|]. intros o [= <-]. discriminate. Qed.
Lemma dz_dx k b c w : domx k b c w -> domz k b c w.
Proof. intros [H1 H2]. split; [exact H1|]. intros o Ho _. exact (H2 o Ho). Qed.

Section WithEnv.
Context {E : Env}.
Notation len p := (N.of_nat (wots_len p)).
Notation extra p := (1 + (1 + (len p + 0)))%N.
Ltac dxs := match goal with
  | |- domx _ (1 + _) (cbind (free (prf _ _ _)) _) _ => apply dx_bind; [eapply dx_runs; [apply ew_prf|eapply runs_weak; [apply w_prf|apply N.le_refl|intros ? ? _ ->; apply N.le_refl]]|intro]
  | |- domx _ (1 + _) (cbind (free (hash_message _ _ _ _ _ _ _)) _) _ => apply dx_bind; [eapply dx_runs; [apply ew_hash_message|eapply runs_weak; [apply w_hmsg|apply N.le_refl|intros ? ? _ ->; apply N.le_refl]]|intro]
  | |- domx _ (N.of_nat _ + 0) (cbind (free (wots_sign _ _ _ _ _)) _) _ => apply dx_bind; [eapply dx_runs; [apply ew_wsign|eapply runs_weak; [apply w_wsign|apply N.le_refl|intros ? ? _ ->; apply N.le_add_r]]|intro]
  | |- domx _ _ (cbind (free _) _) (cbind (free _) _) => apply dx_free; intro
  | |- domx _ _ (free UB) _ => apply dx_ub
  | |- domx _ 0 _ _ => apply dx_dom
  | |- domx _ _ (if ?b then _ else _) _ => destruct b
  | |- domx _ _ (match ?x with _ => _ end) _ => destruct x
  end.
Ltac dx := cbv zeta; repeat (dxs; cbv beta zeta).
Lemma dx_body p idx sk ss ws sm m : domx (leaf_work p) (extra p) (fast_sign_body_c p idx sk ss ws sm m) (fast_sign_body_w p idx sk ss ws sm m).
Proof. unfold fast_sign_body_c, fast_sign_body_w. dx; dm; [apply dm_round|apply dm_updates]. Qed.
Lemma dx_mt_body p idx sk ss ws sm m : domx (leaf_work p) (extra p) (fast_mt_sign_body_c p idx sk ss ws sm m) (fast_mt_sign_body_w p idx sk ss ws sm m).
Proof. unfold fast_mt_sign_body_c, fast_mt_sign_body_w. dx; dm; [apply dm_state|apply dm_layer]. Qed.
Ltac dzs := match goal with
  | |- domz _ _ (cbind (free _) _) (cbind (free _) _) => apply dz_free; intro
  | |- domz _ _ (free _) _ => apply dz_ref
  | |- domz _ _ (fast_sign_body_c _ _ _ _ _ _ _) _ => apply dz_dx, dx_body
  | |- domz _ _ (fast_mt_sign_body_c _ _ _ _ _ _ _) _ => apply dz_dx, dx_mt_body
  | |- domz _ _ (if ?b then _ else _) _ => destruct b
  | |- domz _ _ (match ?x with _ => _ end) _ => destruct x
  end.
Lemma dz_sign p sk sm smlen m : domz (leaf_work p) (extra p) (fast_xmss_core_sign_c p sk sm smlen m) (fast_xmss_core_sign_w p sk sm smlen m).
Proof. unfold fast_xmss_core_sign_c, fast_xmss_core_sign_w. cbv zeta. repeat dzs. Qed.
Lemma dz_mt_sign p sk sm smlen m : domz (leaf_work p) (extra p) (fast_xmssmt_core_sign_c p sk sm smlen m) (fast_xmssmt_core_sign_w p sk sm smlen m).
Proof. unfold fast_xmssmt_core_sign_c, fast_xmssmt_core_sign_w. cbv zeta. repeat dzs. Qed.
Lemma dz_wrap k a parse skb f g sk sm smlen m oid p : oid_of_bytes sk = Ok oid -> parse skb uninit_params oid = Ok (Some p) ->
  (forall sk sm smlen m, domz k a (f p sk sm smlen m) (g p sk sm smlen m)) ->
  domz k a (sign_wrapper_c parse skb f sk sm smlen m) (sign_wrapper_c parse skb g sk sm smlen m).
Proof.
  intros Ho Hp Hfg. unfold sign_wrapper_c. rewrite Ho, !cbind_ok, Hp, !cbind_ok. destruct (Hfg (skipn XMSS_OID_LEN sk) sm smlen m) as [H1 H2].
  unfold cbind. rewrite H1. destruct (out (f p (skipn XMSS_OID_LEN sk) sm smlen m)) as [o| |] eqn:Ef; [|split; [reflexivity|discriminate]..].
  split; [reflexivity|]. cbn [out count free]. intros o2 Ho2 Hrc. rewrite !N.add_0_r. apply (H2 o eq_refl). rewrite <- Hrc. now injection Ho2 as <-.
Qed.
End WithEnv.

Section Row.
Context {E : Env}.
Variable mt : bool.
Variable r : row.
Hypothesis Hr : In r (rows mt).
Notation pf := (row_params r (sk_fast r)).
Lemma signed_hashes sk sm smlen m o : oid_of_bytes sk = Ok (r_oid r) -> sign mt fast_core sk sm smlen m = Ok o -> so_rc o = 0%Z ->
  (2 + chains r + leaves (fast_sign_cost mt sk sm smlen m) * leaf_hashes r <= hashes (fast_sign_work mt sk sm smlen m))%N.
Proof.
  intros Hk Ho Hrc.
  assert (Hd : domz (leaf_work pf) (1 + (1 + (N.of_nat (wots_len pf) + 0))) (fast_sign_cost mt sk sm smlen m) (fast_sign_work mt sk sm smlen m)).
  { apply (dz_wrap _ _ _ _ _ _ _ _ _ _ (r_oid r) pf Hk (parse_accept_fast mt r uninit_params Hr)).
    intros. destruct mt; [apply dz_mt_sign|apply dz_sign]. }
  destruct Hd as [_ Hd]. rewrite (row_leaf mt r Hr), (proj1 (row_wots mt r Hr _)) in Hd. specialize (Hd o). rewrite cost_fast_sign in Hd. specialize (Hd Ho Hrc). lia.
Qed.
End Row.
