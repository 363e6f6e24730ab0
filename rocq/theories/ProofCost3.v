(** The fast core computes few leaves per signature. *)
From Verif Require Import Base Lib ModelUtils ModelParams ModelHash ModelWots ModelCommons ModelCore ModelCoreFast ModelXmss ModelCost ProofCost ProofCost2.

Section WithEnv.
Context {E : Env}.

Lemma n_update p j s sks ps sub : runs (treehash_update_c p j s sks ps sub) 1 (fun _ l => l = 1%N).
Proof.
  unfold treehash_update_c. cbv zeta. rstep.
  eapply (runs_bind _ _ 1%N (fun _ => 0%N) _ (fun _ l => l = 1%N)); [apply one_leaf|lia|].
  intros zx zl _ _ ->. split; [|lia]. repeat (destruct zx as [zx ?]). repeat rstep; cbv beta; lia.
Qed.

(** the loop of bds_treehash_update *)
Lemma n_loop {S} (body : S * N -> cost (S * N * bool)) :
  (forall s u, runs (body (s, u)) 1 (fun '(_, u', b) l => (u' = u + l)%N)) ->
  forall k s u, runs (cloop_pos k body (s, u)) (N.pos k) (fun '(_, u', b) l => (u' = u + l)%N).
Proof.
  intros Hb. induction k as [q IH|q IH|]; intros s u; cbn [cloop_pos]; [| |apply Hb].
  - apply (runs_bind _ _ 1%N (fun _ => N.pos q + N.pos q)%N _ (fun '(_, u', _) l => (u' = u + l)%N)); [apply Hb|lia|].
    intros [[s1 u1] b] l _ Hl ->. split; [|lia]. destruct b; [apply runs_ok; lia|].
    apply (runs_bind _ _ (N.pos q) (fun _ => N.pos q)%N _ (fun '(_, u', _) l' => (u' = u + l + l')%N)); [apply IH|lia|].
    intros [[s2 u2] b] l2 _ Hl2 ->. split; [|lia]. destruct b; [apply runs_ok; lia|].
    eapply runs_weak; [apply IH|lia|]. intros [[s3 u3] b] l3 _ ->. lia.
  - apply (runs_bind _ _ (N.pos q) (fun _ => N.pos q)%N _ (fun '(_, u', _) l' => (u' = u + l')%N)); [apply IH|lia|].
    intros [[s2 u2] b] l2 _ Hl2 ->. split; [|lia]. destruct b; [apply runs_ok; lia|].
    eapply runs_weak; [apply IH|lia|]. intros [[s3 u3] b] l3 _ ->. lia.
Qed.
Lemma n_updates p s u sks ps sub : runs (bds_treehash_update_c p s u sks ps sub) u (fun '(_, r) l => (l <= u)%N /\ r = via_char (u - l)).
Proof.
  unfold bds_treehash_update_c.
  apply (runs_bind _ _ u (fun _ => 0%N) _ (fun '(_, u', _) l => (u' = l)%N)); [|lia|].
  - destruct u as [|q]; [apply runs_ok; reflexivity|]. unfold cloopN.
    eapply runs_weak; [apply n_loop|lia|intros [[] ] l _ ->; lia].
    intros s1 u1. rstep. rstep; [|apply runs_ok; lia].
    apply (runs_bind _ _ 1%N (fun _ => 0%N) _ (fun _ l => (l = 1)%N)); [apply n_update|lia|].
    intros s2 l2 _ _ ->. split; [|lia]. apply runs_ok. lia.
  - intros [[s1 u1] b] l _ Hl ->. split; [|lia]. apply runs_ok. rewrite N.add_0_r. split; [exact Hl|reflexivity].
Qed.
Lemma n_state p s sks ps sub : runs (bds_state_update_c p s sks ps sub) 1 (fun _ l => (l <= 1)%N).
Proof.
  unfold bds_state_update_c. cbv zeta. rstep. rstep. rstep; [apply runs_ok; lia|].
  eapply (runs_bind _ _ 1%N (fun _ => 0%N) _ (fun _ l => l = 1%N)); [apply one_leaf|lia|].
  intros zx zl _ _ ->. split; [|lia]. repeat (destruct zx as [zx ?]). rstep. rstep.
  eapply (runs_bind _ _ 0%N (fun _ => 0%N) _ (fun _ l => l = 0%N)); [repeat rstep; reflexivity|lia|].
  intros zx2 zl1 _ _ ->. split; [|lia]. repeat rstep; cbv beta; lia.
Qed.
Lemma n_round p s li sks ps sub : runs (bds_round_c p s li sks ps sub) 1 (fun _ l => (l <= 1)%N).
Proof.
  unfold bds_round_c. cbv zeta. rstep.
  eapply (runs_bind _ _ 0%N (fun _ => 1%N) _ (fun _ l => l = 0%N)); [repeat rstep; reflexivity|lia|].
  intros zb zl1 _ _ ->. split; [|lia].
  eapply (runs_bind _ _ 0%N (fun _ => 1%N) _ (fun _ l => l = 0%N)); [repeat rstep; reflexivity|lia|].
  intros zs zl1 _ _ ->. split; [|lia]. rstep.
  - eapply (runs_bind _ _ 1%N (fun _ => 0%N) _ (fun _ l => l = 1%N)); [apply one_leaf|lia|].
    intros zx zl _ _ ->. split; [|lia]. repeat (destruct zx as [zx ?]). repeat rstep; cbv beta; lia.
  - rstep. rstep. rstep.
    eapply (runs_bind _ _ 0%N (fun _ => 1%N) _ (fun _ l => l = 0%N)); [apply runs_for0; [intros; repeat rstep; reflexivity|reflexivity]|lia|].
    intros zau zl1 _ _ ->. split; [|lia]. rstep.
    eapply (runs_bind _ _ 0%N (fun _ => 1%N) _ (fun _ l => l = 0%N)); [apply runs_for0; [intros; repeat rstep; reflexivity|reflexivity]|lia|].
    intros zth zl1 _ _ ->. split; [|lia]. repeat rstep; cbv beta; lia.
Qed.

(** updates granted per signature *)
Definition upd_N (p : xmss_params) : N := N.shiftr (f_tree_height p - f_bds_k p) 1.

Lemma n_fast_body p idx sk ss ws sm m : runs (fast_sign_body_c p idx sk ss ws sm m) (upd_N p + 1) (fun _ _ => True).
Proof.
  unfold fast_sign_body_c. cbv zeta.
  repeat (match goal with |- runs (cbind (if _ then cbind (bds_round_c _ _ _ _ _ _) _ else _) _) _ _ => fail 1 | _ => rstep end).
  eapply (runs_bind _ _ _ (fun _ => 0%N) _ (fun _ _ => True)); [|apply N.le_refl|].
  - rstep; [|apply runs_ok; exact I].
    eapply (runs_bind _ _ 1%N (fun _ => upd_N p) _ (fun _ _ => True)); [eapply runs_weak; [apply n_round|lia|auto]|lia|].
    intros zs zl _ Hl _. split; [|lia].
    eapply (runs_bind _ _ (upd_N p) (fun _ => 0%N) _ (fun _ _ => True)); [eapply runs_weak; [apply n_updates|fold (upd_N p); lia|auto]|lia|].
    intros [zs1 zr] zl1 _ Hl1 _. split; [|lia]. rstep; exact I.
  - intros zs zl _ Hl _. split; [|lia]. repeat rstep; exact I.
Qed.
Lemma n_fast_sign p sk sm smlen m : runs (fast_xmss_core_sign_c p sk sm smlen m) (upd_N p + 1) (fun _ _ => True).
Proof.
  unfold fast_xmss_core_sign_c. cbv zeta. 
  repeat (match goal with |- runs (fast_sign_body_c _ _ _ _ _ _ _) _ _ => apply n_fast_body | _ => rstep end); exact I.
Qed.

(** ** Several layers *)
Section Mt.
Variable p : xmss_params.
Variables (idx : N) (sks ps : bytes).
Notation H := (tree_height p).
Definition ends (i : nat) : bool := (N.land (idx + 1) (2 ^ N.of_nat ((i + 1) * H) - 1) =? 0)%N.
Definition stops : bool := negb (idx <? 2 ^ N.of_nat (full_height p) - 1)%N.

Lemma land_pow x k : N.land x (2 ^ k - 1) = (x mod 2 ^ k)%N.
Proof. replace (2 ^ k - 1)%N with (N.ones k) by (rewrite N.ones_equiv, N.sub_1_r; reflexivity). apply N.land_ones. Qed.
Lemma ends_down i j : j <= i -> ends i = true -> ends j = true.
Proof.
  unfold ends. rewrite !land_pow, !N.eqb_eq. intros L Hm.
  apply N.mod_divide; [apply N.pow_nonzero; lia|]. apply N.mod_divide in Hm; [|apply N.pow_nonzero; lia].
  eapply N.divide_trans; [|exact Hm]. exists (2 ^ N.of_nat ((i - j) * H))%N. rewrite <- N.pow_add_r. f_equal. nia.
Qed.
Lemma ends_last : full_height p = p_d p * tree_height p -> 0 < p_d p -> ends (p_d p - 1) = true -> stops = false -> False.
Proof.
  unfold ends, stops. intros Hh Hd0. replace (p_d p - 1 + 1) with (p_d p) by lia. rewrite <- Hh, land_pow, N.eqb_eq, negb_false_iff, N.ltb_lt.
  intros Hm L. rewrite N.mod_small in Hm by lia. lia.
Qed.

(** [L] leaves after [c] layers *)
Definition linv (c : nat) (v : mt_vars) (L : N) : Prop :=
  (mv_swap v = Z.of_nat c - 1 /\ (mv_updates v + N.of_nat c = upd_N p)%N /\ L = 0%N)%Z \/
  ((mv_swap v + 1 < Z.of_nat c)%Z /\ (L + mv_updates v <= upd_N p + 1)%N /\ (mv_updates v <= upd_N p)%N /\
   (forall i, c <= i -> ends i = true -> stops = true)).

Lemma via_small x : (x < 128)%N -> via_char x = x.
Proof.
  intros L. unfold via_char. cbv zeta. rewrite N.mod_small by lia. now replace (x <? 128)%N with true by (symmetry; now apply N.ltb_lt).
Qed.

Hypothesis HU : (upd_N p < 128)%N.
(** fewer trees end together than there are updates *)
Hypothesis Hfew : forall i, i < p_d p -> ends i = true -> stops = false -> (N.of_nat i + 1 <= upd_N p)%N.

Lemma n_layer c v L : c < p_d p -> linv c v L ->
  runs (mt_layer_step_c p idx sks ps c v) (upd_N p + 1 - L) (fun v' l => linv (S c) v' (L + l)).
Proof.
  intros Hc Hv. unfold mt_layer_step_c. cbv zeta. rstep. rstep. rstep.
  repeat match goal with A : shl1_int _ = Ok _ |- _ => apply shl_int_val in A; subst | A : shl1_ull _ = Ok _ |- _ => apply shl_ull_val in A; subst end.
  fold (ends c). destruct (ends c) eqn:Ec; cbn [negb].
  - (* end of a tree *)
    destruct (idx <? 2 ^ N.of_nat (full_height p) - 1)%N eqn:Es.
    + assert (Sf : stops = false) by (unfold stops; now rewrite Es).
      destruct Hv as [(V1 & V2 & V3)|(_ & _ & _ & V4)]; [|exfalso; rewrite (V4 c (le_n c) Ec) in Sf; discriminate].
      pose proof (Hfew c Hc Ec Sf) as Hc2.
      repeat rstep. left. cbn [mv_swap mv_updates]. split; [lia|]. split; [|lia]. unfold u32.
      replace (mv_updates v + (2 ^ 32 - 1))%N with ((mv_updates v - 1) + 1 * 2 ^ 32)%N by lia.
      rewrite N.mod_add by discriminate. rewrite N.mod_small by (change (2 ^ 32)%N with 4294967296%N; lia). lia.
    + assert (Sf : stops = true) by (unfold stops; now rewrite Es).
      apply runs_ok. right. rewrite N.add_0_r. destruct Hv as [(V1 & V2 & V3)|(V1 & V2 & V3 & V4)].
      * repeat split; try lia; auto.
      * repeat split; try lia; auto.
  - (* inside a tree *)
    assert (Hno : forall i, S c <= i -> ends i = true -> stops = true).
    { intros i Hi Hend. exfalso. rewrite (ends_down i c ltac:(lia) Hend) in Ec. discriminate. }
    rstep. rstep. rstep. set (rr := (if (Z.of_nat c =? mv_swap v + 1)%Z then 1 else 0)%N).
    assert (Hb : (L + rr + mv_updates v <= upd_N p + 1 /\ mv_updates v <= upd_N p)%N).
    { unfold rr. destruct (Z.eqb_spec (Z.of_nat c) (mv_swap v + 1)) as [Hz|Hz], Hv as [(V1 & V2 & V3)|(V1 & V2 & V3 & V4)]; lia. }
    assert (Hsw : (mv_swap v + 1 < Z.of_nat (S c))%Z).
    { destruct Hv as [(V1 & V2 & V3)|(V1 & V2 & V3 & V4)]; lia. }
    apply (runs_bind _ _ rr (fun _ => mv_updates v) _ (fun _ l => (l <= rr)%N)); [|lia|].
    { unfold rr. destruct (Z.of_nat c =? mv_swap v + 1)%Z; [apply n_round|apply runs_ok; lia]. }
    intros s1 l1 _ Hl1 _. split; [|lia].
    apply (runs_bind _ _ (mv_updates v) (fun l => mv_updates v - l)%N _ (fun '(_, r) l => (l <= mv_updates v)%N /\ r = via_char (mv_updates v - l))); [apply n_updates|lia|].
    intros [s2 r] l2 _ _ [Hl2 Hr]. rewrite via_small in Hr by lia. subst r. split; [|lia].
    rstep. rstep. rstep; [rstep|].
    + rstep. rstep.
      * apply (runs_bind _ _ 1%N (fun _ => 0%N) _ (fun _ l => (l <= 1)%N)); [apply n_state|lia|].
        intros s3 l3 _ Hl3 _. split; [|lia]. repeat rstep. right. cbn [mv_swap mv_updates]. split; [exact Hsw|].
        assert (Eu : u32 (mv_updates v - l2 + (2 ^ 32 - 1)) = (mv_updates v - l2 - 1)%N).
        { unfold u32. replace (mv_updates v - l2 + (2 ^ 32 - 1))%N with ((mv_updates v - l2 - 1) + 1 * 2 ^ 32)%N by lia.
          rewrite N.mod_add by discriminate. apply N.mod_small. change (2 ^ 32)%N with 4294967296%N; lia. }
        rewrite Eu. repeat split; try lia; auto.
      * rstep. right. cbn [mv_swap mv_updates]. repeat split; try lia; auto.
    + rstep. right. cbn [mv_swap mv_updates]. repeat split; try lia; auto.
    + rstep. right. cbn [mv_swap mv_updates]. repeat split; try lia; auto.
Qed.
Lemma n_layers k : forall c v L, c + k <= p_d p -> linv c v L -> (L <= upd_N p + 1)%N ->
  runs (cforN k c (mt_layer_step_c p idx sks ps) v) (upd_N p + 1 - L) (fun _ _ => True).
Proof.
  induction k as [|k IH]; intros c v L Hc Hv HL; cbn [cforN]; [rstep; exact I|].
  eapply (runs_bind _ _ (upd_N p + 1 - L)%N (fun l => upd_N p + 1 - (L + l))%N _ (fun v' l => linv (S c) v' (L + l))); [apply n_layer; [lia|exact Hv]|lia|].
  intros v' l _ Hl Hv'. split; [|lia]. apply IH; [lia|exact Hv'|lia].
Qed.
End Mt.

(** the condition above *)
Definition few_ends (p : xmss_params) (idx : N) : Prop :=
  forall i, i < p_d p -> ends p idx i = true -> stops p idx = false -> (N.of_nat i + 1 <= upd_N p)%N.
Lemma few_by_depth p idx : full_height p = p_d p * tree_height p -> (N.of_nat (p_d p) <= upd_N p + 1)%N -> few_ends p idx.
Proof.
  intros Hh Hd i Hi He Hs. destruct (Nat.eq_dec (i + 1) (p_d p)) as [Hl|]; [|lia]. exfalso.
  apply (ends_last p idx Hh ltac:(lia)); [|exact Hs]. replace (p_d p - 1) with i by lia. exact He.
Qed.
Lemma few_by_index p idx : (((idx + 1) mod 2 ^ (N.of_nat (tree_height p) * (upd_N p + 1)))%N <> 0)%N -> few_ends p idx.
Proof.
  intros Hm i Hi He _. destruct (N.le_gt_cases (N.of_nat i + 1) (upd_N p)) as [L|L]; [exact L|]. exfalso. apply Hm.
  assert (Hi' : N.to_nat (upd_N p) <= i) by lia. apply (ends_down p idx i (N.to_nat (upd_N p)) Hi') in He.
  unfold ends in He. rewrite land_pow, N.eqb_eq in He. rewrite <- He. f_equal. f_equal. lia.
Qed.

Lemma n_mt_body p idx sk ss ws sm m : few_ends p idx -> (upd_N p < 128)%N ->
  runs (fast_mt_sign_body_c p idx sk ss ws sm m) (upd_N p + 2) (fun _ _ => True).
Proof.
  intros Hd HU. unfold fast_mt_sign_body_c. cbv zeta.
  repeat (match goal with |- runs (cbind (cforN _ _ _ _) _) _ _ => fail 1 | _ => rstep end).
  eapply (runs_bind _ _ 0%N (fun _ => upd_N p + 2)%N _ (fun _ l => l = 0%N)); [apply runs_for0; [|reflexivity]|lia|].
  { intros j [? ?]. repeat rstep; reflexivity. }
  intros [zsm zo] zl0 _ _ ->. split; [|lia]. rstep.
  apply (runs_bind _ _ 1%N (fun _ => upd_N p + 1)%N _ (fun _ _ => True)); [|lia|].
  { rstep; [|rstep; exact I]. rstep. apply (runs_bind _ _ 1%N (fun _ => 0%N) _ (fun _ l => (l <= 1)%N)); [apply n_state|lia|].
    intros zs3 zl3 _ Hl3 _. split; [|lia]. rstep; auto. }
  intros zss zl1 _ Hl1 _. split; [|lia].
  apply (runs_bind _ _ (upd_N p + 1)%N (fun _ => 0%N) _ (fun _ _ => True)); [|lia|].
  { replace (upd_N p + 1)%N with (upd_N p + 1 - 0)%N by lia. apply n_layers; try assumption; [lia| |lia].
    left. cbn [mv_swap mv_updates]. fold (upd_N p). split; [reflexivity|]. split; [lia|reflexivity]. }
  intros zv zl2 _ Hl2 _. split; [|lia]. repeat rstep; exact I.
Qed.
Lemma n_mt_sign p sk sm smlen m : (forall b i, rd sk 0 (index_bytes p) = Ok b -> bytes_to_ull b = Ok i -> few_ends p i) -> (upd_N p < 128)%N ->
  runs (fast_xmssmt_core_sign_c p sk sm smlen m) (upd_N p + 2) (fun _ _ => True).
Proof.
  intros Hd HU. unfold fast_xmssmt_core_sign_c. cbv zeta. 
  repeat (match goal with |- runs (fast_mt_sign_body_c _ _ _ _ _ _ _) _ _ => apply n_mt_body; [eapply Hd; eassumption|assumption] | _ => rstep end); exact I.
Qed.
End WithEnv.
