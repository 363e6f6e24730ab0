(** The number of hash calls of key generation with the fast core. *)
From Coq Require Import ZArith.
From Verif Require Import Base Lib ModelUtils ModelParams ModelHash ModelWots ModelCommons ModelCore ModelCoreFast ModelXmss.
From Verif Require Import ModelCost ProofCost ProofCost2 ProofTree ModelWork ProofWork ProofWork2 ProofWork3 ModelWorkFast ProofWorkFast.

Section WithEnv.
Context {E : Env}.
Notation B p := (2 ^ N.of_nat (tree_height p))%N.

Lemma w_init_while p f : forall idx li s stck hs o bs na T, stk hs o T -> wk T ->
  runs (treehash_init_while_w p f idx li s stck hs o bs na) (4 * N.of_nat (o - 1))
    (fun '(_, hs', o', _, _) l => l = (4 * N.of_nat (o - o'))%N /\ o' <= o /\ exists T', stk hs' o' T' /\ st T' /\ tot T' = tot T).
Proof.
  induction f as [|f IH]; intros idx li s stck hs o bs na T Hs Hw; cbn [treehash_init_while_w]; cbv zeta;
    (destruct (Nat.leb_spec o 1) as [Ho|Ho];
     [rstep; split; [rewrite Nat.sub_diag; reflexivity|]; split; [lia|]; exists T; split; [exact Hs|]; split; [|reflexivity]; destruct Hs as [_ Hl]; destruct T as [|x [|y T]]; cbn in *; lia || exact I|]);
    (destruct T as [|x [|y T]]; [destruct Hs; cbn in *; lia|destruct Hs; cbn in *; lia|]); rstep; rstep;
    match goal with A : rdc hs (o - 1) = Ok ?a, B : rdc hs (o - 2) = Ok ?b |- _ => rename A into H1; rename B into H2; rename a into h1; rename b into h2 end;
    pose proof (stk_top _ _ _ _ _ Hs H1) as ->;
    (assert (Hs1 : stk hs (o - 1) (y :: T)) by (destruct Hs as [A1 A2]; split; [now apply repr_pop in A1|cbn in *; lia]));
    (assert (H2' : rdc hs (o - 1 - 1) = Ok h2) by (rewrite <- H2; f_equal; lia));
    pose proof (stk_top _ _ _ _ _ Hs1 H2') as ->; cbn [wk] in Hw; destruct Hw as [Hxy Hu];
    (destruct (Nat.eqb_spec x y) as [->|Hne]; cbn [negb];
     [|rstep; split; [rewrite Nat.sub_diag; reflexivity|]; split; [lia|]; exists (x :: y :: T); split; [exact Hs|]; split; [|reflexivity]; cbn; split; [lia|exact Hu]]).
  - rstep. discriminate.
  - rstep. rstep. rstep. eapply (runs_then _ _ 4%N); [apply w_thash_h|lia|]. intros [o1 na1] _. rstep. rstep.
    match goal with B : wrc hs (o - 2) _ = Ok ?hs2 |- _ => apply wrc_inv in B as [Hlt ->] end.
    assert (Hs2 : stk (upd hs (o - 2) (y + 1)) (o - 1) (y + 1 :: T)).
    { destruct Hs1 as [A1 A2]. split; [|exact A2]. replace (o - 2) with (length T) by (cbn in A2; lia). now apply (repr_set _ _ y). }
    eapply runs_weak; [apply (IH _ _ _ _ _ _ _ _ (y + 1 :: T) Hs2)|lia|].
    + destruct T as [|z T]; cbn in *; [exact I|]. split; [lia|tauto].
    + intros zz l _. repeat (destruct zz as [zz ?]). intros (-> & Hle & T' & B1 & B2 & B3). split; [lia|]. split; [lia|]. exists T'. split; [exact B1|]. split; [exact B2|].
      rewrite B3. cbn [tot]. rewrite Nat.add_1_r, Nat2N.inj_succ, N.pow_succ_r'. lia.
Qed.

Lemma w_init p s sks ps sub : runs (treehash_init_w p (tree_height p) s sks ps sub) (tree_work p) (fun _ l => l = tree_work p).
Proof.
  unfold treehash_init_w. cbv zeta. rstep. match goal with H : shl1_int _ = Ok _ |- _ => apply shl_int_val in H; subst end.
  assert (HB : (1 <= B p)%N) by (pose proof (N.pow_nonzero 2 (N.of_nat (tree_height p))); lia).
  rstep. eapply (runs_bind _ _ 0%N (fun _ => tree_work p) _ (fun _ l => l = 0%N)); [|lia|].
  { apply runs_for0; [|reflexivity]. intros. repeat rstep; reflexivity. }
  intros zths zl0 _ _ ->. split; [|lia].
  eapply (runs_bind _ _ (tree_work p) (fun _ => 0%N) _ (fun _ l => l = tree_work p)); [|lia|].
  - eapply runs_weak.
    + apply (runs_for_inv (fun j '(_, hs, o, _, _, _, _) c => o <= j /\ (0 < j -> 0 < o) /\ c = (N.of_nat j * leaf_work p + 4 * N.of_nat (j - o))%N /\
         exists T, stk hs o T /\ st T /\ tot T = N.of_nat j) (tree_work p) (N.to_nat (B p)) 0 _ _ 0%N); [|apply N.le_0_l|].
      * split; [lia|]. split; [lia|]. split; [reflexivity|]. exists []. repeat split.
      * intros j [[[[[[stck hs] o] bs] la] oa] na] c _ Hj Hc Hi. cbv beta iota in Hi |- *. destruct Hi as (Ho & _ & Ec & T & Ht & Hst & Htot).
        assert (Hj1 : (N.of_nat j + 1 <= B p)%N) by lia.
        assert (Hroom : (c + leaf_work p + 4 * N.of_nat o <= tree_work p)%N).
        { rewrite Ec. unfold tree_work. assert ((N.of_nat j + 1) * leaf_work p <= B p * leaf_work p)%N by (apply N.mul_le_mono_r; exact Hj1). lia. }
        rthen (leaf_work p) w_leaf. destruct z as [[leaf lta] ota]. rstep. rstep.
        match goal with H : wrc hs _ _ = Ok _ |- _ => apply wrc_inv in H as [Hlt ->] end.
        eapply (runs_then _ _ 0%N); [repeat rstep; reflexivity|lia|]. intros bs2 _.
        destruct Ht as [Ht1 Ht2].
        eapply (runs_bind _ _ (4 * N.of_nat (o + 1 - 1)) (fun _ => 0%N)).
        -- apply (w_init_while p _ _ _ _ _ _ _ _ _ (0 :: T)); [|now apply st_wk0]. split; [|cbn; lia].
           rewrite <- Ht2. apply repr_push; [exact Ht1|lia].
        -- lia.
        -- intros zs2 l2 _ Hl2 Hq. repeat (destruct zs2 as [zs2 ?]). destruct Hq as (-> & Hle & T' & [G1 G2] & G3 & G4). split; [|lia]. rstep.
           assert (Htt : tot T' = N.of_nat (Datatypes.S j)) by (rewrite G4; cbn [tot]; rewrite Htot; change (2 ^ N.of_nat 0)%N with 1%N; lia).
           assert (0 < length T') by (destruct T'; [cbn in Htt; lia|cbn; lia]).
           split; [lia|]. split; [lia|]. split; [rewrite Ec; lia|]. exists T'. repeat split; assumption.
    + lia.
    + intros zs c _ Hi. repeat (destruct zs as [zs ?]). destruct Hi as (Ho & Ho1 & Ec & T & [Ht1 Ht2] & Hst & Htot). cbn [Nat.add] in *.
      rewrite N.add_0_l in Ec. rewrite N2Nat.id in Htot. apply st_one in Htot; [|exact Hst]. rewrite Ec. unfold tree_work. rewrite N2Nat.id. lia.
  - intros zs l _ _ ->. repeat (destruct zs as [zs ?]). split; [|lia]. rstep. rstep. lia.
Qed.
Lemma w_fast_keypair p pk sk r : runs (fast_xmss_core_keypair_w p pk sk r) (tree_work p) (fun _ l => l = tree_work p).
Proof.
  unfold fast_xmss_core_keypair_w. cbv zeta.
  repeat (match goal with |- runs (cbind (treehash_init_w _ _ _ _ _ _) _) _ _ => fail 1 | _ => rstep end).
  rthen (tree_work p) w_init. destruct z. repeat rstep; cbv beta; lia.
Qed.
(** at least a tree per layer and the starts of the chains of the roots; at most all their steps as well *)
Definition mt_key_min p : N := (N.of_nat (p_d p) * tree_work p + N.of_nat (p_d p - 1) * N.of_nat (wots_len p))%N.
Definition mt_key_max p : N := (N.of_nat (p_d p) * tree_work p + N.of_nat (p_d p - 1) * pkgen_work p)%N.
Lemma runs_for_range {S} k : forall i (body : nat -> S -> cost S) s K1 K2,
  (forall j s, runs (body j s) K2 (fun _ l => K1 <= l)%N) -> runs (cforN k i body s) (N.of_nat k * K2) (fun _ l => N.of_nat k * K1 <= l)%N.
Proof.
  induction k as [|k IH]; intros i body s K1 K2 Hb; cbn [cforN]; [rstep; lia|].
  apply (runs_bind _ _ K2 (fun _ => N.of_nat k * K2)%N _ (fun _ l => K1 <= l)%N); [apply Hb|lia|].
  intros x l _ Hl Hl1. split; [|lia]. eapply runs_weak; [now apply IH|lia|]. intros y l2 _ Hl2. cbv beta in *. lia.
Qed.
Lemma w_mt_keypair p pk sk r : 0 < p_d p -> runs (fast_xmssmt_core_keypair_w p pk sk r) (mt_key_max p) (fun _ l => mt_key_min p <= l)%N.
Proof.
  intros Hd. unfold fast_xmssmt_core_keypair_w. cbv zeta.
  repeat (match goal with |- runs (cbind (cforN _ _ _ _) _) _ _ => fail 1 | _ => rstep end).
  assert (E1 : (mt_key_max p = N.of_nat (p_d p - 1) * (tree_work p + pkgen_work p) + tree_work p)%N).
  { unfold mt_key_max. replace (p_d p) with (S (p_d p - 1)) at 1 by lia. lia. }
  assert (E2 : (mt_key_min p = N.of_nat (p_d p - 1) * (tree_work p + N.of_nat (wots_len p)) + tree_work p)%N).
  { unfold mt_key_min. replace (p_d p) with (S (p_d p - 1)) at 1 by lia. lia. }
  rewrite E1, E2.
  eapply (runs_bind _ _ (N.of_nat (p_d p - 1) * (tree_work p + pkgen_work p)) (fun _ => tree_work p) _ (fun _ l => N.of_nat (p_d p - 1) * (tree_work p + N.of_nat (wots_len p)) <= l)%N);
    [apply runs_for_range|lia|].
  - intros zj zs. repeat (destruct zs as [zs ?]). rstep. rthen (tree_work p) w_init. destruct z as [root s1]. rstep. rstep.
    pose proof (sign_digits_le p root) as Hr. unfold pkgen_work.
    eapply (runs_then _ _ (N.of_nat (wots_len p) + 3 * sign_digits p root)%N); [apply w_wsign|lia|]. intros [] _. rstep. rstep. lia.
  - intros zx1 zl3 _ Hl3 Hl. split; [|lia]. repeat (destruct zx1 as [zx1 ?]). rstep.
    rthen (tree_work p) w_init. destruct z. repeat rstep; cbv beta; lia.
Qed.
End WithEnv.
