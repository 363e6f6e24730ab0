(** Fast core, too many layers: what happens when the index reaches 2^(H(U+2)). *)
From Coq Require Import ZArith.
From Verif Require Import Base ModelUtils ModelParams ModelHash ModelWots ModelCommons ModelCore ModelCoreFast SpecRfc Lib ProofUtils ProofHash ProofWots ProofCommons ProofTree ProofCore ProofSched ProofBds1 ProofBds2 ProofBds3 ProofBds4 ProofFast1 ProofFast2 ProofFast5 ProofApi ProofMt1 ProofMt2 ProofMt3 ProofMt4 ProofMt5 ProofMt6.

Section Mt.
Context {E : Env}.
Variable p : xmss_params.
Variable Hf : bytes -> bytes.
Hypothesis Hp : params_ok p.
Hypothesis HH : hash_total p Hf.
Notation P := (sp_of p Hf).
Notation n := (p_n p).
Notation H := (tree_height p).
Notation k := (bds_k p).
Notation thc := (thcount p).
Notation wsig := (wots_sig_bytes p).
Notation d := (p_d p).
Hypothesis Hk : k < H.
Hypothesis H3 : 3 <= H.
Notation U := ((H - k) / 2).
Hypothesis HU : Nat.min thc (H - 2) <= 2 * U.
Variables (sks seed : bytes).
Hypothesis Hsks : length sks = n.
Hypothesis Hseed : length seed = n.
Notation dig := (dig H).
Notation hi := (hi H).
Notation full := (full H).
Notation cnt := (cnt H).
Notation A := (A p).
Notation layer := (layer p Hf sks seed).
Notation ex_next := (ex_next p).
Notation allgood := (allgood H).

Let H2 : H <> 2.
Proof. clear - H3; lia. Qed.
Let H30 : H <= 30.
Proof. pose proof (po_th p Hp). lia. Qed.
Let Hh : full_height p = H * d.
Proof. rewrite (po_h p Hp). apply Nat.mul_comm. Qed.
Let U128 : U < 128.
Proof. pose proof (po_th p Hp) as X. apply Nat.div_lt_upper_bound; clear - X; lia. Qed.



Notation slot := (ck wsig).
Notation up_sig := (up_sig p Hf sks seed).


Notation mtinv := (mtinv p Hf sks seed).
Notation ib := (index_bytes p).
Notation dft := (mkBds [] 0 [] [] [] [] [] 0%N).

Notation behind := (behind p).
Notation weak := (weak p).

Lemma forN_app {S} a b : forall i (body : nat -> S -> res S) s, forN (a + b) i body s = bind (forN a i body s) (forN b (i + a) body).
Proof.
  induction a as [|a IH]; intros i body s; cbn [Nat.add].
  - rewrite Nat.add_0_r. reflexivity.
  - rewrite !forN_S. destruct (body i s) as [x| |]; cbn [bind]; [|reflexivity|reflexivity]. rewrite IH. replace (i + Datatypes.S a) with (Datatypes.S i + a) by (clear; lia). reflexivity.
Qed.

(** the stack of a tree one leaf short: the left half of the tree at the bottom *)
Lemma bst_split nd a : forall b l e, bst nd (a + b) l e = bst nd a l e ++ bst nd b (l + a) e.
Proof.
  induction a as [|a IH]; intros b l e; cbn [bst Nat.add app]; [now rewrite Nat.add_0_r|].
  rewrite IH. replace (l + Datatypes.S a) with (Datatypes.S l + a) by (clear; lia). destruct (N.testbit e (N.of_nat l)); reflexivity.
Qed.
Lemma bst_short nd : exists R, bst nd (H + 1) 0 (2 ^ N.of_nat H - 1) = R ++ [(H - 1, nd (H - 1) 0%N)].
Proof.
  exists (bst nd (H - 1) 0 (2 ^ N.of_nat H - 1)). replace (H + 1) with (H - 1 + 2) by (clear - H3; lia). rewrite bst_split. f_equal.
  cbn [bst Nat.add].
  assert (E1 : (2 ^ N.of_nat H - 1)%N = N.ones (N.of_nat H)) by (rewrite N.ones_equiv, N.sub_1_r; reflexivity).
  rewrite E1. rewrite N.ones_spec_low by (clear - H3; lia). rewrite N.ones_spec_high by (clear - H3; lia). do 3 f_equal.
  rewrite <- E1.
  assert (E2 : ((2 ^ N.of_nat H - 1) / 2 ^ N.of_nat (H - 1) = 1)%N).
  { symmetry. apply (N.div_unique _ _ _ (2 ^ N.of_nat (H - 1) - 1)); [pose proof (pow2_pos (H - 1)) as X; clear - X; lia|].
    pose proof (pow2_pos (H - 1)) as X. replace (N.of_nat H) with (N.succ (N.of_nat (H - 1))) by (clear - H3; lia). rewrite N.pow_succ_r'. clear - X. lia. }
  now rewrite E2.
Qed.
Lemma srepr_bottom stack levels R x : srepr n stack levels (R ++ [x]) -> ck n stack 0 = snd x.
Proof. induction R as [|y R IH]; cbn [srepr app length]; [intros [A1 _]; exact A1|intros (_ & _ & A1); exact (IH A1)]. Qed.

(** a layer without updates left *)
Lemma step_zero idx i v s : i < d -> (idx < 2 ^ N.of_nat (H * d))%N -> length (mv_ss v) = nstates p -> ~ full idx (S i) ->
  nth_error (mv_ss v) i = Some s -> mv_updates v = 0%N -> (Z.of_nat i <> mv_swap v + 1)%Z ->
  exists v', mt_layer_step p idx sks seed i v = Ok v' /\ length (mv_ss v') = length (mv_ss v) /\ (forall j, nth_error (mv_ss v') j = nth_error (mv_ss v) j) /\
    mv_ws v' = mv_ws v /\ mv_ots v' = mv_ots v /\ mv_swap v' = mv_swap v /\ mv_updates v' = 0%N.
Proof.
  intros Hi Lidx Lss NF N1 Eu Hsw. rewrite (step_nofull p Hp Hk H3 HU sks seed Hsks Hseed idx i v Hi NF). cbv zeta.
  rewrite (rdc_some _ _ s N1), bind_ok. destruct (Z.eqb_spec (Z.of_nat i) (mv_swap v + 1)) as [?|_]; [contradiction|]. rewrite bind_ok, Eu.
  unfold tail_code. assert (E0 : forall a, bds_treehash_update p s 0 sks seed a = Ok (s, 0%N)) by reflexivity. rewrite E0, bind_ok. cbv beta iota zeta.
  assert (Li : i < length (mv_ss v)) by (apply nth_error_Some; congruence). rewrite wrc_ok, bind_ok by exact Li.
  assert (M1 : H * d < 64) by (pose proof (po_h64 p Hp) as A1; rewrite Hh in A1; exact A1).
  rewrite shl_ull by (rewrite Hh; clear - M1; lia). rewrite bind_ok.
  replace ((0 <? i) && (0 <? 0)%N) with false by (now rewrite andb_false_r).
  assert (Hall : forall j, nth_error (upd (mv_ss v) i s) j = nth_error (mv_ss v) j).
  { intros j. destruct (Nat.eq_dec j i) as [->|Hne]; [rewrite nth_error_upd_same by exact Li; now rewrite N1|apply nth_error_upd_other; auto]. }
  destruct (_ <? _)%N; eexists; (split; [reflexivity|]); cbn [mv_ss mv_ws mv_ots mv_swap mv_updates]; (split; [apply upd_length|]); auto.
Qed.

(** *** The state after the failing call *)
Definition half (J : N) : bytes := node P sks seed (N.of_nat (U + 1)) (hi J (U + 2)) (H - 1) 0.
Definition bad_sig (J : N) : bytes :=
  concat (wots_sig P seed (N.of_nat (U + 2)) (hi J (U + 3)) (N.of_nat (dig J (U + 2))) sks (half J)).
Definition broken (J : N) (ss : list bds_state) (ws : bytes) : Prop :=
  length ss = nstates p /\ length ws = (d - 1) * wsig /\
  (forall i, i < d -> i <> U + 1 -> layer 0 J i ss) /\ weak (U + 1) ss /\
  (forall i, S i < d -> slot ws i = if i =? U + 1 then bad_sig J else up_sig J i) /\
  (exists s, nth_error ss (U + 1) = Some s /\ forall j, j + 1 < H -> ck n (st_auth s) j = node P sks seed (N.of_nat (U + 1)) (hi J (U + 2)) j 1).
Lemma broken_ok J ss ws : broken J ss ws -> states_ok p ss.
Proof.
  intros (I1 & _ & I3 & I4 & _). apply (weak_all p ss I1). intros i Hi. destruct (Nat.eq_dec i (U + 1)) as [->|Hne]; [exact I4|].
  exact (layer_weak p Hf Hp HH Hk H3 HU sks seed Hsks Hseed 0 J i ss (I3 i Hi Hne)).
Qed.

Lemma swapped_cur_range nx : in_range nx -> in_range (swapped_cur nx).
Proof.
  intros (R1 & R2 & R3). split; [exact R1|]. split; [exact R2|]. unfold swapped_cur. cbn [st_treehash set_treehash].
  apply Forall_forall. intros t Ht. apply in_map_iff in Ht as (t' & <- & Ht'). rewrite Forall_forall in R3. destruct (R3 t' Ht') as (G1 & G2 & G3 & G4).
  unfold th_range, done_th. cbn. repeat split; try assumption.
Qed.
Lemma swapped_next_shape s : shape p s -> shape p (swapped_next s).
Proof. intros Hs. exact (pt_shape _ _ _ _ _ _ _ _ (partial_0 p Hf Hk sks seed 0 0 Hsks Hseed s Hs)). Qed.
Lemma swapped_next_range s : in_range s -> in_range (swapped_next s).
Proof. intros (_ & _ & R3). split; [reflexivity|]. split; [reflexivity|exact R3]. Qed.

Definition bad (i : nat) : bool := i =? U + 1.
Definition wtop (J : N) (i : nat) (ss : list bds_state) : Prop :=
  weak i ss /\ exists s, nth_error ss i = Some s /\ forall j, j + 1 < H -> ck n (st_auth s) j = node P sks seed (N.of_nat (U + 1)) (hi J (U + 2)) j 1.
Lemma wtop_frame J i ss ss' : nth_error ss' i = nth_error ss i -> nth_error ss' (d + i) = nth_error ss (d + i) -> wtop J i ss -> wtop J i ss'.
Proof. intros E1 E2 [W (s & S1 & S2)]. split; [exact (weak_frame p i ss ss' E1 E2 W)|]. exists s. split; [now rewrite E1|exact S2]. Qed.
Lemma fail_update idx ss ws ots a : H <= 5 -> U + 2 < d -> (idx + 1 = 2 ^ N.of_nat (H * (U + 2)))%N -> mtinv idx ss ws -> behind idx ss -> a3 ots = 0%N -> sub_ctx 0 (hi idx 1 + 1) a ->
  exists ss2 v,
    (if (u64 ((1 + hi idx 1) * 2 ^ N.of_nat H + N.of_nat (dig idx 0)) <? 2 ^ N.of_nat (full_height p))%N
     then let* nx := rdc ss d in let* nx := bds_state_update p nx sks seed a in wrc ss d nx else Ok ss) = Ok ss2 /\
    forN d 0 (mt_layer_step p idx sks seed) (mkMt ss2 ws a ots (N.of_nat U) (-1)) = Ok v /\
    broken (idx + 1) (mv_ss v) (mv_ws v).
Proof.
  intros H5 Hd Eidx (I1 & I2 & I3 & I4) Hbe Ho Ha.
  assert (Lidx : (idx + 1 < 2 ^ N.of_nat (H * d))%N).
  { rewrite Eidx. apply N.pow_lt_mono_r; [reflexivity|]. assert (Z : H * (U + 2) < H * d) by (apply Nat.mul_lt_mono_pos_l; [clear - H3; lia|exact Hd]). clear - Z. lia. }
  assert (Lidx' : (idx < 2 ^ N.of_nat (H * d))%N) by (clear - Lidx; lia).
  assert (F : full idx (U + 2)) by (apply full_mod; rewrite Eidx; apply N.mod_same, N.pow_nonzero; discriminate).
  assert (NF : ~ full idx (S (U + 2))).
  { intros Z. apply full_mod in Z. rewrite Eidx in Z. rewrite N.mod_small in Z; [revert Z; apply N.pow_nonzero; discriminate|].
    apply N.pow_lt_mono_r; [reflexivity|]. clear - H3. nia. }
  assert (Ehi : hi (idx + 1) (U + 2) = 1%N) by (unfold ProofMt1.hi; rewrite Eidx; apply N.div_same, N.pow_nonzero; discriminate).
  assert (Ehi0 : (hi idx (U + 2) + 1 = hi (idx + 1) (U + 2))%N) by (symmetry; apply (hi_step H idx (U + 2)); exact F).
  destruct (pre_update p Hf Hp HH Hk H3 HU sks seed Hsks Hseed idx ss a Lidx' I1 (I3 0 ltac:(clear - Hd; lia)) Ha) as (ss2 & P1 & P2 & P3 & P4).
  rewrite I1 in P2.
  assert (Hlay : forall i, i < d -> layer (if i =? 0 then 1 else 0) idx i ss2).
  { intros i Hi. destruct (Nat.eqb_spec i 0) as [->|Hi0]; [exact P3|]. apply (layer_frame p Hf sks seed 0 idx i ss); [apply P4; clear - Hi; lia|apply P4; clear - Hi0; lia|now apply I3]. }
  assert (Hgood : forall i, i < d -> bad i = false -> layer (if i =? 0 then 1 else 0) idx i ss2) by (intros; now apply Hlay).
  assert (Hweak : forall i, i < d -> bad i = true -> weak i ss2).
  { intros i Hi _. exact (layer_weak p Hf Hp HH Hk H3 HU sks seed Hsks Hseed _ idx i ss2 (Hlay i Hi)). }
  assert (Hm : U + 2 < d) by exact Hd.
  set (X := bad_sig (idx + 1)).
  (* the layers below *)
  destruct (loop_to p Hf Hp HH Hk H3 HU sks seed Hsks Hseed idx (U + 2) bad (wtop (idx + 1)) X ss2 ws Lidx Hm F NF Hgood (wtop_frame (idx + 1)) 0 _ (U + 1) (start_J p Hf sks seed idx (U + 2) bad (wtop (idx + 1)) X ss2 ws ots a P2 I2 Ho)) as (v1 & E1 & J1).
  { apply Nat.le_0_l. } { clear - Hd; lia. } { intros i _ Hi. apply Nat.eqb_neq. clear - Hi; lia. } { intros i _ Hi _. clear - Hi; lia. }
  rewrite Nat.sub_0_r in E1.
  (* layer U+1: the incomplete tree becomes the current one *)
  pose proof J1 as (A1 & A2 & A3 & A4 & A5 & A6 & A7 & A8).
  destruct (A5 (U + 1) (le_n _) ltac:(clear - Hd; lia)) as [B1 B2].
  destruct (Hlay (U + 1) ltac:(clear - Hd; lia)) as (s & f & u & base & L1 & C & L3).
  destruct (L3 ltac:(clear - Hd; lia)) as (nx & N1 & N2 & N3 & N4).
  assert (En : nth_error ss (d + (U + 1)) = Some nx) by (rewrite <- P4 by (clear; lia); exact N1).
  pose proof (Hbe nx En) as Eb.
  assert (Hex : ex_next idx (U + 1)).
  { unfold ProofMt2.ex_next. replace (S (U + 1)) with (U + 2) by (clear; lia). rewrite Ehi0, Ehi. rewrite <- (N.pow_0_r 2) at 1. apply N.pow_lt_mono_r; [reflexivity|].
    assert (Z : 0 < H * (d - 1 - (U + 1))) by (apply Nat.mul_pos_pos; [clear - H3; lia|clear - Hd; lia]). clear - Z. lia. }
  destruct (N4 Hex) as (e & Q1 & Q2 & _). replace (S (U + 1)) with (U + 2) in Q2 by (clear; lia). rewrite Ehi0 in Q2.
  assert (De : dig idx (U + 1) = 2 ^ H - 1). { replace (U + 2) with (S (U + 1)) in F by (clear; lia). destruct F as [_ D]. exact D. }
  rewrite (pt_next _ _ _ _ _ _ _ _ Q2), De in Eb. apply Nat2N.inj in Eb. subst e.
  assert (Ee : N.of_nat (2 ^ H - 1) = (2 ^ N.of_nat H - 1)%N) by (rewrite pBn; clear; lia). rewrite Ee in Q2.
  assert (Hst : st_stack nx = half (idx + 1) ++ skipn n (st_stack nx)).
  { pose proof (pt_stack _ _ _ _ _ _ _ _ Q2) as St.
    destruct (bst_short (node P sks seed (N.of_nat (U + 1)) (hi (idx + 1) (U + 2)))) as [R ER]. rewrite ER in St. apply srepr_bottom in St. cbn [snd] in St. unfold ck in St. rewrite Nat.mul_0_l in St. cbn [skipn] in St.
    fold (half (idx + 1)) in St. rewrite <- St. symmetry. apply firstn_skipn. }
  assert (F1 : full idx (S (U + 1))) by (replace (S (U + 1)) with (U + 2) by (clear; lia); exact F).
  destruct (step_swap_raw p Hf Hp HH Hk H3 HU sks seed Hsks Hseed idx (U + 1) v1 s nx (half (idx + 1)) (skipn n (st_stack nx))) as (v2 & V1 & V2 & V3 & V4 & V5 & V6 & V7 & V8 & V9 & V10 & V11).
  { clear - Hd; lia. } { exact Lidx. } { exact A1. } { exact F1. } { rewrite B1; exact L1. } { rewrite B2; exact N1. } { exact Hst. }
  { apply (node_length p Hf Hp HH). } { apply (node_bytes p Hf HH). } { exact A2. } { exact A3. }
  assert (Hc : U + 1 < d) by (clear - Hd; lia).
  pose proof (cur_shape p Hf Hp HH Hk H3 HU sks seed Hsks Hseed idx (U + 1) f u base s C) as [Ss Sr].
  assert (J2 : J p Hf sks seed idx (U + 2) bad (wtop (idx + 1)) X ss2 ws (S (U + 1)) v2).
  { apply (advance p Hf sks seed idx (U + 2) bad (wtop (idx + 1)) X ss2 ws (wtop_frame (idx + 1)) (U + 1) v1 v2 Hc J1 V2 V3).
    - unfold bad. rewrite Nat.eqb_refl. split; [|exists (swapped_cur nx); split; [exact V4|]; intros j Hj;
        apply (bu_auth _ _ _ _ _ (pt_built _ _ _ _ _ _ _ _ Q2) j); [clear - Hj; lia|]; left;
        assert (Zj : (2 ^ N.of_nat (j + 2) <= 2 ^ N.of_nat H)%N) by (apply N.pow_le_mono_r; [discriminate|clear - Hj; lia]);
        rewrite Nat2N.inj_add, N.pow_add_r in Zj; change (2 ^ N.of_nat 2)%N with 4%N in Zj; pose proof (pow2_pos j) as Zj2; clear - Zj Zj2; lia].
      exists (swapped_cur nx). split; [exact V4|]. split; [apply done_shape, N2|]. split; [apply swapped_cur_range, N3|].
      intros _. exists (swapped_next s). split; [exact V5|]. split; [exact (swapped_next_shape s Ss)|exact (swapped_next_range s Sr)].
    - rewrite V9. exact A2.
    - exact V8.
    - intros _. rewrite V10. destruct (Nat.ltb_spec (U + 1) (U + 2)) as [_|Z]; [|clear - Z; lia]. unfold nsig, bad. rewrite Nat.eqb_refl. unfold X, bad_sig.
      replace (S (U + 1)) with (U + 2) by (clear; lia). replace (S (U + 2)) with (U + 3) by (clear; lia). reflexivity.
    - intros i Hi Hne. apply V11; [clear - Hi; lia|exact Hne].
    - left. split; [clear; lia|]. split; [rewrite V7; clear; lia|]. rewrite V6. destruct A7 as [(_ & _ & K3)|(K1 & _)]; [|clear - K1; lia]. rewrite K3. apply (next_updates p Hp H3); exact Hc.
    - intros _ _ Z. unfold bad in Z. rewrite Nat.eqb_refl in Z. discriminate. }
  (* the layers above *)
  replace (S (U + 1)) with (U + 2) in J2 by (clear; lia).
  destruct (loop_to p Hf Hp HH Hk H3 HU sks seed Hsks Hseed idx (U + 2) bad (wtop (idx + 1)) X ss2 ws Lidx Hm F NF Hgood (wtop_frame (idx + 1)) (U + 2) v2 d J2) as (v & E3 & (G1 & G2 & _ & G4 & _ & G6 & _)).
  { clear - Hd; lia. } { apply Nat.le_refl. } { intros i Hi _. apply Nat.eqb_neq. clear - Hi; lia. } { intros i Z1 _ Z2. clear - Z1 Z2; lia. }
  exists ss2, v. split; [exact P1|]. split.
  { assert (Ed : d = (U + 1) + (1 + (d - (U + 2)))) by (clear - Hd; lia). rewrite Ed at 1. rewrite forN_app, E1, bind_ok, forN_app, Nat.add_0_l. rewrite forN_S, V1, bind_ok. cbn [forN bind]. rewrite <- E3. f_equal. clear; lia. }
  split; [exact G1|]. split; [exact G2|]. split; [|split; [|split]].
  - intros i Hi Hne. specialize (G4 i Hi Hi). unfold bad in G4. apply Nat.eqb_neq in Hne. rewrite Hne in G4. exact G4.
  - specialize (G4 (U + 1) Hc Hc). unfold bad in G4. rewrite Nat.eqb_refl in G4. exact (proj1 G4).
  - intros i Hi. rewrite (G6 i Hi). destruct (Nat.ltb_spec i d) as [_|Z]; [|clear - Z Hi; lia]. cbn [andb].
    destruct (Nat.ltb_spec i (U + 2)) as [_|Z]; [reflexivity|]. rewrite (I4 i Hi). destruct (Nat.eqb_spec i (U + 1)) as [Z'|_]; [clear - Z Z'; lia|].
    symmetry. apply (up_same p Hf sks seed idx (U + 2)); [exact NF|exact Z].
  - specialize (G4 (U + 1) Hc Hc). unfold bad in G4. rewrite Nat.eqb_refl in G4. exact (proj2 G4).
Qed.

(** the calls right after it leave the broken layer alone: it gets no updates *)
Lemma broken_update J ss ws ots a : U + 2 < d -> (J = 2 ^ N.of_nat (H * (U + 2)))%N -> broken J ss ws -> a3 ots = 0%N -> sub_ctx 0 (hi J 1 + 1) a ->
  exists ss2 v,
    (if (u64 ((1 + hi J 1) * 2 ^ N.of_nat H + N.of_nat (dig J 0)) <? 2 ^ N.of_nat (full_height p))%N
     then let* nx := rdc ss d in let* nx := bds_state_update p nx sks seed a in wrc ss d nx else Ok ss) = Ok ss2 /\
    forN d 0 (mt_layer_step p J sks seed) (mkMt ss2 ws a ots (N.of_nat U) (-1)) = Ok v /\
    states_ok p (mv_ss v) /\ length (mv_ws v) = (d - 1) * wsig.
Proof.
  intros Hd EJ (I1 & I2 & I3 & I4 & I5 & _) Ho Ha.
  assert (Lidx : (J + 1 < 2 ^ N.of_nat (H * d))%N).
  { rewrite EJ. assert (Z : H * (U + 2) < H * d) by (apply Nat.mul_lt_mono_pos_l; [clear - H3; lia|exact Hd]).
    replace (H * d) with (H * (U + 2) + (H * d - H * (U + 2))) by (clear - Z; lia). rewrite Nat2N.inj_add, N.pow_add_r.
    assert (Z2 : (2 ^ 1 <= 2 ^ N.of_nat (H * d - H * (U + 2)))%N) by (apply N.pow_le_mono_r; [discriminate|clear - Z; lia]).
    assert (Z3 : (2 ^ 1 <= 2 ^ N.of_nat (H * (U + 2)))%N) by (apply N.pow_le_mono_r; [discriminate|clear - H3; nia]).
    change (2 ^ 1)%N with 2%N in *. clear - Z2 Z3. nia. }
  assert (Lidx' : (J < 2 ^ N.of_nat (H * d))%N) by (clear - Lidx; lia).
  assert (F : full J 0) by exact Logic.I.
  assert (NF : ~ full J 1).
  { intros Z. apply full_mod in Z. rewrite Nat.mul_1_r, EJ in Z. replace (H * (U + 2)) with (H * (U + 1) + H) in Z by (clear; lia).
    rewrite Nat2N.inj_add, N.pow_add_r, N.add_comm, N.mod_add in Z by (apply N.pow_nonzero; discriminate).
    rewrite N.mod_small in Z; [discriminate|]. apply N.pow_gt_1; [reflexivity|]. clear - H3; lia. }
  destruct (pre_update p Hf Hp HH Hk H3 HU sks seed Hsks Hseed J ss a Lidx' I1 (I3 0 ltac:(clear - Hd; lia) ltac:(clear; lia)) Ha) as (ss2 & P1 & P2 & P3 & P4).
  rewrite I1 in P2.
  assert (Hgood : forall i, i < d -> bad i = false -> layer (if i =? 0 then 1 else 0) J i ss2).
  { intros i Hi Hb. destruct (Nat.eqb_spec i 0) as [->|Hi0]; [exact P3|]. apply (layer_frame p Hf sks seed 0 J i ss); [apply P4; clear - Hi; lia|apply P4; clear - Hi0; lia|]. apply I3; [exact Hi|]. now apply Nat.eqb_neq. }
  assert (Hwk : weak (U + 1) ss2) by (apply (weak_frame p (U + 1) ss); [apply P4; clear - Hd; lia|apply P4; clear; lia|exact I4]).
  assert (Hm : 0 < d) by (clear - Hd; lia).
  destruct (loop_to p Hf Hp HH Hk H3 HU sks seed Hsks Hseed J 0 bad weak [] ss2 ws Lidx Hm F NF Hgood (weak_frame p) 0 _ (U + 1) (start_J p Hf sks seed J 0 bad weak [] ss2 ws ots a P2 I2 Ho)) as (v1 & E1 & J1).
  { apply Nat.le_0_l. } { clear - Hd; lia. } { intros i _ Hi. apply Nat.eqb_neq. clear - Hi; lia. } { intros i _ _ Z. clear - Z; lia. }
  rewrite Nat.sub_0_r in E1. assert (Hc : U + 1 < d) by (clear - Hd; lia).
  pose proof J1 as (A1 & A2 & A3 & A4 & A5 & A6 & A7 & A8).
  destruct (A5 (U + 1) (le_n _) Hc) as [B1 B2]. destruct Hwk as (s & W1 & W2 & W3 & W4).
  destruct A7 as [(K1 & _)|(K1 & K2 & K3)]; [clear - K1; lia|]. destruct (K3 ltac:(clear; lia)) as (w & Ew & _ & _ & Hw).
  assert (W0 : w = 0).
  { assert (Z : w <= U + 1 - (U + 1)); [apply Hw|clear - Z; lia]. intros i G1 G2. unfold ProofMt2.ex_next.
    assert (Z1 : (hi J (S i) < 2 ^ N.of_nat (H * (d - S i)))%N) by (apply hi_lt; [exact Lidx'|clear - G2 Hd; lia]).
    assert (Z2 : hi J (S i) = (2 ^ N.of_nat (H * (U + 2) - H * S i))%N).
    { unfold ProofMt1.hi. rewrite EJ. replace (H * (U + 2)) with (H * (U + 2) - H * S i + H * S i) at 1 by (clear - G2; nia). rewrite Nat2N.inj_add, N.pow_add_r. apply N.div_mul, N.pow_nonzero. discriminate. }
    rewrite Z2. set (x := H * (U + 2) - H * S i) in *.
    assert (Z3 : x + 1 < H * (d - 1 - i)) by (unfold x; clear - G2 Hd H3; nia).
    assert (Z4 : (2 ^ N.of_nat (x + 1) < 2 ^ N.of_nat (H * (d - 1 - i)))%N) by (apply N.pow_lt_mono_r; [reflexivity|clear - Z3; lia]).
    rewrite Nat2N.inj_add, N.pow_add_r in Z4. change (2 ^ N.of_nat 1)%N with 2%N in Z4. pose proof (pow2_pos x) as Z5. clear - Z4 Z5. lia. }
  subst w.
  assert (NF' : ~ full J (S (U + 1))) by (apply (not_full_up H J 1 (S (U + 1))); [clear; lia|exact NF]).
  destruct (step_zero J (U + 1) v1 s Hc Lidx' A1 NF') as (v2 & V1 & V2 & V3 & V4 & V5 & V6 & V7).
  { rewrite B1. exact W1. } { exact Ew. } { rewrite K2. clear; lia. }
  assert (J2 : ProofMt5.J p Hf sks seed J 0 bad weak [] ss2 ws (S (U + 1)) v2).
  { apply (advance p Hf sks seed J 0 bad weak [] ss2 ws (weak_frame p) (U + 1) v1 v2 Hc J1 V2).
    - intros j _ _. apply V3.
    - unfold bad. rewrite Nat.eqb_refl. exists s. split; [rewrite V3, B1; exact W1|]. split; [exact W2|]. split; [exact W3|]. intros Hs. destruct (W4 Hs) as (nx & X1 & X2). exists nx. split; [rewrite V3, B2; exact X1|exact X2].
    - rewrite V4. exact A2.
    - rewrite V5. exact A3.
    - intros _. rewrite V4. reflexivity.
    - intros i _ _. now rewrite V4.
    - right. split; [clear; lia|]. split; [rewrite V6; exact K2|]. intros _. exists 0. split; [exact V7|]. split; [apply Nat.le_0_l|]. split; [|intros _; clear; lia].
      intros _. unfold ProofMt2.A. clear; lia.
    - intros _ _ Z. unfold bad in Z. rewrite Nat.eqb_refl in Z. discriminate. }
  replace (S (U + 1)) with (U + 2) in J2 by (clear; lia).
  destruct (loop_to p Hf Hp HH Hk H3 HU sks seed Hsks Hseed J 0 bad weak [] ss2 ws Lidx Hm F NF Hgood (weak_frame p) (U + 2) v2 d J2) as (v & E3 & (G1 & G2 & _ & G4 & _)).
  { clear - Hd; lia. } { apply Nat.le_refl. } { intros i Hi _. apply Nat.eqb_neq. clear - Hi; lia. } { intros i Z1 _ Z2. clear - Z1 Z2; lia. }
  exists ss2, v. split; [exact P1|]. split.
  { assert (Ed : d = (U + 1) + (1 + (d - (U + 2)))) by (clear - Hd; lia). rewrite Ed at 1. rewrite forN_app, E1, bind_ok, forN_app, Nat.add_0_l. rewrite forN_S, V1, bind_ok. cbn [forN bind]. rewrite <- E3. f_equal. clear; lia. }
  split; [|exact G2]. apply (weak_all p (mv_ss v) G1). intros i Hi. specialize (G4 i Hi Hi). destruct (bad i); [exact G4|].
  exact (layer_weak p Hf Hp HH Hk H3 HU sks seed Hsks Hseed 0 (J + 1) i _ G4).
Qed.

Section Sign.
Variables (prfk rt : bytes).
Hypothesis Hprf : length prfk = n.
Hypothesis Hrt : length rt = n.

(** the call at index 2^(H(U+2)) - 1: its signature is right, the key it leaves is broken *)
Lemma fail_sign idx ss ws sm m smlen post : H <= 5 -> U + 2 < d -> (idx + 1 = 2 ^ N.of_nat (H * (U + 2)))%N -> mtinv idx ss ws -> behind idx ss ->
  sig_bytes p + length m <= length sm ->
  exists ss' ws', broken (idx + 1) ss' ws' /\
    fast_xmssmt_core_sign p (sk_layout (toByte idx ib) sks prfk rt seed (concat (map (store_state p) ss) ++ ws ++ post)) sm smlen m =
      Ok (mkSign 0 (sk_layout (toByte (idx + 1) ib) sks prfk rt seed (concat (map (store_state p) ss') ++ ws' ++ post))
         (mt_sign P sks prfk rt seed idx m ++ m ++ skipn (sig_bytes p + length m) sm) (sig_bytes p + length m)).
Proof.
  intros H5 Hd EJ Hinv Hbe Hsm.
  destruct (fast_mt_sign_gen p Hf Hp HH Hk H3 HU sks seed Hsks Hseed prfk rt Hprf Hrt (fun ss' ws' => broken (idx + 1) ss' ws') idx ss ws sm m smlen post) as (ss' & ws' & Q1 & _ & _ & Heq).
  { rewrite Hh, EJ. apply N.pow_lt_mono_r; [reflexivity|]. assert (Z : H * (U + 2) < H * d) by (apply Nat.mul_lt_mono_pos_l; [clear - H3; lia|exact Hd]). clear - Z. lia. }
  { exact (mtinv_ok p Hf Hp HH Hk H3 HU sks seed Hsks Hseed _ _ _ Hinv). } { apply Hinv. } { exact Hsm. }
  { intros ots a Ho Ha. destruct (fail_update idx ss ws ots a H5 Hd EJ Hinv Hbe Ho Ha) as (ss2 & v & U1 & U2 & U3).
    exists ss2, v. split; [exact U1|]. split; [exact U2|]. split; [exact (broken_ok _ _ _ U3)|]. split; [apply U3|exact U3]. }
  exists ss', ws'. split; [exact Q1|]. rewrite (sig_is_spec p Hf Hp HH Hk H3 HU sks seed Hsks Hseed prfk rt idx m ss ws Hinv) in Heq. exact Heq.
Qed.

(** the layer signatures of the next call; [G]: whatever stands where the top node of the
    authentication path of layer U+1 should be *)
Definition bauth (J : N) : bytes := concat (map (fun j => node P sks seed (N.of_nat (U + 1)) (hi J (U + 2)) j 1) (seq 0 (H - 1))).
Definition blayer (G M : bytes) (J : N) (i : nat) : bytes :=
  if i =? U + 1 then concat (wots_sig P seed (N.of_nat i) (tree_of P J i) (leaf_of P J i) sks (layer_msg P sks seed M J i)) ++ bauth J ++ G
  else if i =? U + 2 then bad_sig J ++ concat (auth_path P sks seed (N.of_nat i) (tree_of P J i) (leaf_of P J i))
  else layer_sig P sks seed M J i.
Lemma broken_sig J m ss ws : U + 2 < d -> broken J ss ws -> exists G, length G = n /\
  sig_out p Hf sks prfk rt seed J m 0 (N.shiftr J (N.of_nat H)) (J mod 2 ^ N.of_nat H)%N (st_auth (nth 0 ss dft)) (concat (map (upper p ss ws) (seq 1 (d - 1)))) =
  toByte J ib ++ PRF P prfk (toByte J 32) ++ concat (map (blayer G (H_msg P (PRF P prfk (toByte J 32)) rt J m) J) (seq 0 d)).
Proof.
  intros Hdu (I1 & I2 & I3 & I4 & I5 & I6). assert (Hd : 1 <= d) by (clear - Hdu; lia).
  destruct I4 as (sB & W1 & W2 & _). pose proof (sh_auth p _ W2) as LA. destruct I6 as (sB' & W1' & WA). rewrite W1 in W1'. assert (sB' = sB) by congruence. subst sB'.
  assert (EA : st_auth sB = bauth J ++ ck n (st_auth sB) (H - 1)).
  { unfold bauth. rewrite <- (map_ext_in (fun j => ck n (st_auth sB) j)).
    2:{ intros j Hj. apply in_seq in Hj. apply WA. clear - Hj H3. lia. }
    assert (Gen : forall m b, length b = m * n -> concat (map (fun j => ck n b j) (seq 0 m)) = b).
    { intros mm b Hb. pose proof (rd_all_ck n b mm Hb) as R1. rewrite <- Hb, (rd_all b 0 (length b) eq_refl eq_refl) in R1. injection R1 as R1. symmetry. exact R1. }
    rewrite <- (Gen H (st_auth sB) LA) at 1. replace (seq 0 H) with (seq 0 (H - 1) ++ [H - 1]).
    - rewrite map_app, concat_app. cbn [map concat]. now rewrite app_nil_r.
    - replace H with (S (H - 1)) at 3 by (clear - H3; lia). rewrite seq_S. reflexivity. }
  exists (ck n (st_auth sB) (H - 1)). split; [apply (ck_length n _ _ H); [exact LA|clear - H3; lia]|].
  unfold sig_out. cbv zeta. do 2 f_equal. set (M := H_msg P (PRF P prfk (toByte J 32)) rt J m).
  replace (seq 0 d) with (0 :: seq 1 (d - 1)) by (clear - Hd; destruct d as [|x]; [lia|cbn [seq Nat.sub]; now rewrite Nat.sub_0_r]). cbn [map concat].
  assert (E0 : N.shiftr J (N.of_nat H) = tree_of P J 0) by (rewrite (tree_hi p Hf Hp), N.shiftr_div_pow2; unfold ProofMt1.hi; now rewrite Nat.mul_1_r).
  assert (E1 : (J mod 2 ^ N.of_nat H)%N = leaf_of P J 0) by (rewrite (leaf_dig' p Hf Hp), (dig_N H), (hi_0 H); reflexivity).
  assert (EL : forall i, i < d -> i <> U + 1 -> st_auth (nth i ss dft) = concat (auth_path P sks seed (N.of_nat i) (tree_of P J i) (leaf_of P J i))).
  { intros i Hi Hne. exact (layer_auth p Hf Hp HH Hk H3 HU sks seed Hsks Hseed J i ss (I3 i Hi Hne)). }
  assert (B0 : blayer (ck n (st_auth sB) (H - 1)) M J 0 = layer_sig P sks seed M J 0).
  { unfold blayer. destruct (Nat.eqb_spec 0 (U + 1)) as [Z|_]; [clear - Z; lia|]. destruct (Nat.eqb_spec 0 (U + 2)) as [Z|_]; [clear - Z; lia|reflexivity]. }
  rewrite B0. unfold layer_sig at 1. cbv zeta. rewrite <- app_assoc. rewrite E0, E1, (EL 0) by (clear - Hd; lia). change (N.of_nat 0) with 0%N. do 2 f_equal. f_equal.
  apply map_ext_in. intros i Hi. apply in_seq in Hi. unfold upper.
  destruct i as [|i]; [clear - Hi; lia|]. replace (S i - 1) with i by (clear; lia). pose proof (I5 i ltac:(clear - Hi; lia)) as U5. unfold ck in U5. rewrite U5.
  unfold blayer. destruct (Nat.eqb_spec (S i) (U + 1)) as [Z|Z].
  - destruct (Nat.eqb_spec i (U + 1)) as [Y|_]; [clear - Y Z; lia|]. rewrite <- Z in W1. rewrite (nth_error_nth ss (S i) _ W1), <- EA. f_equal.
    unfold ProofMt4.up_sig, layer_msg. rewrite !(tree_hi p Hf Hp), (leaf_dig' p Hf Hp). reflexivity.
  - rewrite (EL (S i)) by (exact Z || (clear - Hi; lia)). destruct (Nat.eqb_spec (S i) (U + 2)) as [Y|Y], (Nat.eqb_spec i (U + 1)) as [X|X]; try (exfalso; clear - X Y; lia).
    + reflexivity.
    + unfold layer_sig. cbv zeta. f_equal. unfold ProofMt4.up_sig, layer_msg. rewrite !(tree_hi p Hf Hp), (leaf_dig' p Hf Hp). reflexivity.
Qed.
Lemma broken_sign J ss ws sm m smlen post : U + 2 < d -> (J = 2 ^ N.of_nat (H * (U + 2)))%N -> broken J ss ws -> sig_bytes p + length m <= length sm ->
  exists G ss' ws', length G = n /\ states_ok p ss' /\ length ws' = (d - 1) * wsig /\
    fast_xmssmt_core_sign p (sk_layout (toByte J ib) sks prfk rt seed (concat (map (store_state p) ss) ++ ws ++ post)) sm smlen m =
      Ok (mkSign 0 (sk_layout (toByte (J + 1) ib) sks prfk rt seed (concat (map (store_state p) ss') ++ ws' ++ post))
         ((toByte J ib ++ PRF P prfk (toByte J 32) ++ concat (map (blayer G (H_msg P (PRF P prfk (toByte J 32)) rt J m) J) (seq 0 d)))
          ++ m ++ skipn (sig_bytes p + length m) sm) (sig_bytes p + length m)).
Proof.
  intros Hd EJ Hb Hsm.
  destruct (fast_mt_sign_gen p Hf Hp HH Hk H3 HU sks seed Hsks Hseed prfk rt Hprf Hrt (fun _ _ => True) J ss ws sm m smlen post) as (ss' & ws' & _ & Q1 & Q2 & Heq).
  { rewrite Hh, EJ. assert (Z : H * (U + 2) < H * d) by (apply Nat.mul_lt_mono_pos_l; [clear - H3; lia|exact Hd]).
    replace (H * d) with (H * (U + 2) + (H * d - H * (U + 2))) by (clear - Z; lia). rewrite Nat2N.inj_add, N.pow_add_r.
    assert (Z2 : (2 ^ 1 <= 2 ^ N.of_nat (H * d - H * (U + 2)))%N) by (apply N.pow_le_mono_r; [discriminate|clear - Z; lia]).
    assert (Z3 : (2 ^ 1 <= 2 ^ N.of_nat (H * (U + 2)))%N) by (apply N.pow_le_mono_r; [discriminate|clear - H3; nia]).
    change (2 ^ 1)%N with 2%N in *. clear - Z2 Z3. nia. }
  { exact (broken_ok _ _ _ Hb). } { apply Hb. } { exact Hsm. }
  { intros ots a Ho Ha. destruct (broken_update J ss ws ots a Hd EJ Hb Ho Ha) as (ss2 & v & U1 & U2 & U3 & U4). exists ss2, v. auto. }
  destruct (broken_sig J m ss ws Hd Hb) as (G & LG & EG). rewrite EG in Heq. exists G, ss', ws'. auto.
Qed.
End Sign.
End Mt.
