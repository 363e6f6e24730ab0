(** Bounds on the number of leaves. *)
From Verif Require Import Base Lib ModelUtils ModelParams ModelHash ModelWots ModelCommons ModelCore ModelCoreFast ModelXmss ModelCost ProofCost.

(** [runs c K Q]: at most [K] leaves, whatever happens; and [Q x l] if the result is [x] after [l] leaves. *)
Definition runs {A} (c : cost A) (K : N) (Q : A -> N -> Prop) : Prop :=
  (leaves c <= K)%N /\ forall x, out c = Ok x -> Q x (leaves c).

Lemma runs_free {A} (r : res A) K (Q : A -> N -> Prop) : (forall x, r = Ok x -> Q x 0%N) -> runs (free r) K Q.
Proof. intros HQ. split; [cbn; lia|exact HQ]. Qed.
Lemma runs_bind {A B} (c : cost A) (f : A -> cost B) a b K (Q1 : A -> N -> Prop) (Q : B -> N -> Prop) :
  runs c a Q1 -> (a <= K)%N -> (forall x l, out c = Ok x -> (l <= a)%N -> Q1 x l -> runs (f x) (b l) (fun y j => Q y (l + j)%N) /\ (l + b l <= K)%N) ->
  runs (cbind c f) K Q.
Proof.
  intros [H1 H2] Ha Hf. unfold cbind. destruct (out c) as [x| |] eqn:Eo; [|split; [cbn; lia|discriminate]..].
  destruct (Hf x (leaves c) eq_refl H1 (H2 x eq_refl)) as [[G1 G2] Hb]. split; cbn [leaves out]; [lia|]. exact G2.
Qed.
(** a part without leaves *)
Lemma runs_step {A B} (r : res A) (f : A -> cost B) K (Q : B -> N -> Prop) :
  (forall x, r = Ok x -> runs (f x) K Q) -> runs (cbind (free r) f) K Q.
Proof.
  intros Hf. apply (runs_bind _ _ 0%N (fun _ => K) K (fun x l => l = 0%N)); [apply runs_free; auto|lia|].
  intros x l Hx _ ->. split; [|lia]. destruct (Hf x Hx) as [A1 A2]. split; [exact A1|]. exact A2.
Qed.
Lemma runs_weak {A} (c : cost A) K K' (Q Q' : A -> N -> Prop) : runs c K Q -> (K <= K')%N -> (forall x l, out c = Ok x -> Q x l -> Q' x l) -> runs c K' Q'.
Proof. intros [H1 H2] Hk HQ. split; [lia|]. intros x Hx. apply (HQ x); auto. Qed.
Lemma runs_ok {A} (x : A) K (Q : A -> N -> Prop) : Q x 0%N -> runs (free (Ok x)) K Q.
Proof. intros Hq. apply runs_free. now intros y [= <-]. Qed.
Lemma runs_ub {A} K (Q : A -> N -> Prop) : runs (free UB) K Q.
Proof. now apply runs_free. Qed.
Lemma runs_for {S} k : forall i (body : nat -> S -> cost S) s K,
  (forall j s, i <= j -> j < i + k -> runs (body j s) K (fun _ l => l = K)) -> runs (cforN k i body s) (N.of_nat k * K) (fun _ l => (l = N.of_nat k * K)%N).
Proof.
  induction k as [|k IH]; intros i body s K Hb; [apply runs_ok; lia|]. cbn [cforN].
  apply (runs_bind _ _ K (fun _ => N.of_nat k * K)%N _ (fun _ l => l = K)); [apply Hb; lia|lia|].
  intros x l _ Hl ->. split; [|lia]. apply (runs_weak _ (N.of_nat k * K)%N _ (fun _ l => (l = N.of_nat k * K)%N)); [|lia|intros; lia].
  apply IH. intros j s' A1 A2. apply Hb; lia.
Qed.

Ltac rstep := match goal with
  | |- runs (free (Ok _)) _ _ => apply runs_ok
  | |- runs (free UB) _ _ => apply runs_ub
  | |- runs (free _) _ _ => apply runs_free
  | |- runs (cbind (free _) _) _ _ => apply runs_step; intros ? ?
  | |- runs (if ?b then _ else _) _ _ => destruct b eqn:?
  | |- runs (match ?x with _ => _ end) _ _ => destruct x eqn:?
  end.

Section WithEnv.
Context {E : Env}.

Lemma shl_int_val h x : shl1_int h = Ok x -> x = (2 ^ N.of_nat h)%N.
Proof. unfold shl1_int. destruct (h <? 31); congruence. Qed.
Lemma shl_ull_val h x : shl1_ull h = Ok x -> x = (2 ^ N.of_nat h)%N.
Proof. unfold shl1_ull. destruct (h <? 64); congruence. Qed.
Lemma pow_to_nat h : N.of_nat (N.to_nat (2 ^ N.of_nat h)) = (2 ^ N.of_nat h)%N.
Proof. lia. Qed.

Lemma one_leaf p sks ps la oa : runs (gen_leaf_wots_c p sks ps la oa) 1 (fun _ l => l = 1%N).
Proof. split; [cbn; lia|reflexivity]. Qed.

(** no leaves in a loop *)
Lemma runs_for0 {S} k i (body : nat -> S -> cost S) s (Q : S -> N -> Prop) K :
  (forall j s, runs (body j s) 0 (fun _ l => l = 0%N)) -> (forall x, Q x 0%N) -> runs (cforN k i body s) K Q.
Proof.
  intros Hb HQ. apply (runs_weak _ (N.of_nat k * 0) _ (fun _ l => l = (N.of_nat k * 0)%N)); [apply runs_for; auto|lia|].
  intros x l _ ->. rewrite N.mul_0_r. apply HQ.
Qed.

(** ** Reference core *)
Notation B p := (2 ^ N.of_nat (tree_height p))%N.
Lemma n_treehash p ab ao sks ps li sub : runs (treehash_c p ab ao sks ps li sub) (B p) (fun _ l => l = B p).
Proof.
  unfold treehash_c. cbv zeta. rstep. match goal with H : shl1_int _ = Ok _ |- _ => apply shl_int_val in H; subst end.
  eapply (runs_bind _ _ (B p) (fun _ => 0%N) _ (fun _ l => l = B p)); [|lia|].
  - eapply runs_weak; [apply (runs_for _ _ _ _ 1)|rewrite pow_to_nat; lia|intros zx zl _ ->; rewrite pow_to_nat; lia].
    intros zj zs _ _. repeat (destruct zs as [zs ?]). 
    eapply (runs_bind _ _ 1%N (fun _ => 0%N) _ (fun _ l => l = 1%N)); [apply one_leaf|lia|].
    intros zx zl _ _ ->. split; [|lia]. repeat (destruct zx as [zx ?]). repeat rstep; cbv beta; try lia.
    eapply (runs_bind _ _ 0%N (fun _ => 0%N) _ (fun _ l => l = 0%N)); [repeat rstep; reflexivity|lia|].
    intros zx1 zl1 _ _ ->. split; [|lia]. repeat rstep; cbv beta; lia.
  - intros zx zl _ _ ->. split; [|lia]. repeat (destruct zx as [zx ?]). repeat rstep; cbv beta; lia.
Qed.
Lemma n_ref_keypair p pk sk r : runs (ref_xmssmt_core_keypair_c p pk sk r) (B p) (fun _ l => l = B p).
Proof.
  unfold ref_xmssmt_core_keypair_c. eapply (runs_bind _ _ (B p) (fun _ => 0%N) _ (fun _ l => l = B p)); [|lia|].
  - unfold xmssmt_core_seed_keypair_c. cbv zeta. do 9 rstep.
    eapply (runs_bind _ _ (B p) (fun _ => 0%N) _ (fun _ l => l = B p)); [apply n_treehash|lia|].
    intros [] zl _ _ ->. split; [|lia]. repeat rstep; cbv beta; lia.
  - intros [[]] zl _ _ ->. split; [|lia]. repeat rstep; cbv beta; lia.
Qed.
Lemma n_ref_body p idx sk sm smlen mlen : runs (ref_sign_body_c p idx sk sm smlen mlen) (N.of_nat (p_d p) * B p) (fun o l => so_rc o = 0%Z /\ l = (N.of_nat (p_d p) * B p)%N).
Proof.
  unfold ref_sign_body_c. cbv zeta. repeat (match goal with |- runs (cbind (cforN _ _ _ _) _) _ _ => fail 1 | _ => rstep end).
  eapply (runs_bind _ _ _ (fun _ => 0%N) _ (fun _ l => l = _)); [apply (runs_for _ _ _ _ (B p))|lia|].
  - intros zj zs _ _. repeat (destruct zs as [zs ?]). rstep. rstep. rstep.
    eapply (runs_bind _ _ (B p) (fun _ => 0%N) _ (fun _ l => l = B p)); [apply n_treehash|lia|].
    intros [] zl _ _ ->. split; [|lia]. repeat rstep; cbv beta; lia.
  - intros zx zl _ _ ->. split; [|lia]. repeat (destruct zx as [zx ?]). rstep; cbv beta; split; [reflexivity|lia].
Qed.
Lemma n_ref_sign p sk sm smlen m : runs (ref_xmssmt_core_sign_c p sk sm smlen m) (N.of_nat (p_d p) * B p)
  (fun o l => l = if (so_rc o =? 0)%Z then (N.of_nat (p_d p) * B p)%N else 0%N).
Proof.
  unfold ref_xmssmt_core_sign_c. cbv zeta. 
  repeat (match goal with |- runs (ref_sign_body_c _ _ _ _ _ _) _ _ => fail 1 | _ => rstep end); try reflexivity;
    (eapply runs_weak; [apply n_ref_body|lia|intros zx zl _ [-> ->]; reflexivity]).
Qed.

(** ** Fast core *)
Lemma n_init p s sks ps sub : runs (treehash_init_c p (tree_height p) s sks ps sub) (B p) (fun _ l => l = B p).
Proof.
  unfold treehash_init_c. cbv zeta. rstep. match goal with H : shl1_int _ = Ok _ |- _ => apply shl_int_val in H; subst end.
  rstep. eapply (runs_bind _ _ 0%N (fun _ => B p) _ (fun _ l => l = 0%N)); [|lia|].
  { apply runs_for0; [|reflexivity]. intros. repeat rstep; reflexivity. }
  intros zths zl0 _ _ ->. split; [|lia].
  eapply (runs_bind _ _ (B p) (fun _ => 0%N) _ (fun _ l => l = B p)); [|lia|].
  - eapply runs_weak; [apply (runs_for _ _ _ _ 1)|rewrite pow_to_nat; lia|intros zx zl _ ->; rewrite pow_to_nat; lia].
    intros zj zs _ _. repeat (destruct zs as [zs ?]). 
    eapply (runs_bind _ _ 1%N (fun _ => 0%N) _ (fun _ l => l = 1%N)); [apply one_leaf|lia|].
    intros zx1 zl _ _ ->. split; [|lia]. repeat (destruct zx1 as [zx1 ?]). repeat rstep; cbv beta; try lia.
    eapply (runs_bind _ _ 0%N (fun _ => 0%N) _ (fun _ l => l = 0%N)); [repeat rstep; reflexivity|lia|].
    intros zx2 zl1 _ _ ->. split; [|lia]. repeat rstep; cbv beta; lia.
  - intros zx1 zl _ _ ->. split; [|lia]. repeat (destruct zx1 as [zx1 ?]). repeat rstep; cbv beta; lia.
Qed.
Lemma n_fast_keypair p pk sk r : runs (fast_xmss_core_keypair_c p pk sk r) (B p) (fun _ l => l = B p).
Proof.
  unfold fast_xmss_core_keypair_c. cbv zeta. 
  repeat (match goal with |- runs (cbind (treehash_init_c _ _ _ _ _ _) _) _ _ => fail 1 | _ => rstep end).
  eapply (runs_bind _ _ (B p) (fun _ => 0%N) _ (fun _ l => l = B p)); [apply n_init|lia|].
  intros [] zl1 _ _ ->. split; [|lia]. repeat rstep; cbv beta; lia.
Qed.
Lemma n_mt_keypair p pk sk r : 0 < p_d p -> runs (fast_xmssmt_core_keypair_c p pk sk r) (N.of_nat (p_d p) * B p) (fun _ l => (l = N.of_nat (p_d p) * B p)%N).
Proof.
  intros Hd. unfold fast_xmssmt_core_keypair_c. cbv zeta. 
  repeat (match goal with |- runs (cbind (cforN _ _ _ _) _) _ _ => fail 1 | _ => rstep end).
  eapply (runs_bind _ _ (N.of_nat (p_d p - 1) * B p) (fun _ => B p) _ (fun _ l => (l = N.of_nat (p_d p - 1) * B p)%N)); [apply runs_for|nia|].
  - intros zj zs _ _. repeat (destruct zs as [zs ?]). rstep.
    eapply (runs_bind _ _ (B p) (fun _ => 0%N) _ (fun _ l => l = B p)); [apply n_init|lia|].
    intros [] zl3 _ _ ->. split; [|lia]. repeat rstep; cbv beta; lia.
  - intros zx1 zl3 _ _ ->. split; [|nia]. repeat (destruct zx1 as [zx1 ?]). rstep.
    eapply (runs_bind _ _ (B p) (fun _ => 0%N) _ (fun _ l => l = B p)); [apply n_init|lia|].
    intros [] zl4 _ _ ->. split; [|lia]. repeat rstep; cbv beta; nia.
Qed.

End WithEnv.
