(** BDS traversal, part 3: the treehash instances that share the stack, the choice of the
    next instance, and bds_treehash_update. *)
From Coq Require Import Sorting.Sorted.
From Verif Require Import Base Lib SpecRfc ModelUtils ModelParams ModelHash ModelWots ModelCommons ModelCore
  ModelCoreFast ProofUtils ProofHash ProofWots ProofCommons ProofTree ProofSched ProofBds1 ProofBds2.

(** ** Sorted stacks *)
Definition lsorted (S : list (nat * bytes)) : Prop := StronglySorted lt (map fst S).
Lemma lsorted_app A B : lsorted A -> lsorted B -> (forall a b, In a A -> In b B -> fst a < fst b) -> lsorted (A ++ B).
Proof.
  unfold lsorted. intros HA HB Hab. rewrite map_app. induction A as [|a A IH]; [exact HB|].
  cbn [map app] in *. inversion HA as [|x y H1 H2]; subst. constructor.
  - apply IH; [exact H1|]. intros; apply Hab; [now right|assumption].
  - apply Forall_app. split; [exact H2|]. apply Forall_forall. intros x Hx. apply in_map_iff in Hx as (b & <- & Hb).
    apply Hab; [now left|exact Hb].
Qed.
Lemma lsorted_len S B : lsorted S -> (forall a, In a S -> fst a < B) -> length S <= B.
Proof.
  intros Hs Hb. rewrite <- (map_length fst S). rewrite <- (seq_length B 0). apply NoDup_incl_length.
  - unfold lsorted in Hs. induction Hs as [|x l Hl IH Hf]; constructor; [|exact IH].
    intros Hin. rewrite Forall_forall in Hf. specialize (Hf x Hin). lia.
  - intros x Hx. apply in_map_iff in Hx as (a & <- & Ha). apply in_seq. specialize (Hb a Ha). lia.
Qed.

Lemma sorted_head A B a : lsorted (a :: A ++ B) -> forall b, In b (a :: A) -> fst a <= fst b.
Proof.
  unfold lsorted. cbn [map]. intros Hs b [<-|Hb]; [lia|]. inversion Hs as [|x y H1 H2]; subst.
  rewrite Forall_forall in H2. specialize (H2 (fst b)). rewrite map_app in H2.
  assert (fst a < fst b); [|lia]. apply H2. apply in_or_app. left. now apply in_map.
Qed.
Lemma sorted_nth a S : lsorted (a :: S) -> forall i d, i < length (a :: S) -> fst a <= fst (nth i (a :: S) d).
Proof.
  intros Hs i d Hi. rewrite <- (app_nil_r S) in Hs. apply (sorted_head S [] a Hs). now apply nth_In.
Qed.
Lemma testbit_low (x i l : nat) : l < i -> x mod 2 ^ i = 0 -> N.testbit (N.of_nat x) (N.of_nat l) = false.
Proof.
  intros Hl Hx. rewrite <- (N.mod_pow2_bits_low (N.of_nat x) (N.of_nat i)) by lia.
  rewrite pow2_of_nat. rewrite <- Nat2N.inj_mod, Hx. apply N.bits_0.
Qed.

Lemma ones_nat_mod x j : ones (N.of_nat x) j -> (x + 1) mod 2 ^ j = 0.
Proof.
  unfold ones. intros Ho. assert (He : x + 1 = (x / 2 ^ j + 1) * 2 ^ j).
  { rewrite pow2_of_nat, <- Nat2N.inj_div in Ho. lia. }
  rewrite He. apply Nat.mod_mul. pose proof (pow2_pos_nat j). lia.
Qed.

Section BstLevels.
Variable nd : nat -> N -> bytes.
Lemma bst_in k : forall l e a, In a (bst nd k l e) -> l <= fst a < l + k /\ N.testbit e (N.of_nat (fst a)) = true.
Proof.
  induction k as [|k IH]; intros l e a Ha; cbn [bst] in Ha; [contradiction|].
  destruct (N.testbit e (N.of_nat l)) eqn:Hb.
  - destruct Ha as [<-|Ha]; [cbn; split; [lia|exact Hb]|]. apply IH in Ha as [H1 H2]. split; [lia|exact H2].
  - apply IH in Ha as [H1 H2]. split; [lia|exact H2].
Qed.
Lemma bst_sorted k : forall l e, lsorted (bst nd k l e).
Proof.
  induction k as [|k IH]; intros l e; cbn [bst]; [constructor|].
  destruct (N.testbit e (N.of_nat l)); [|apply IH]. unfold lsorted. cbn [map fst]. constructor; [apply IH|].
  apply Forall_forall. intros x Hx. apply in_map_iff in Hx as (a & <- & Ha). apply bst_in in Ha. lia.
Qed.
Lemma bst_nil_mod j x : bst nd j 0 (N.of_nat x) = [] <-> x mod 2 ^ j = 0.
Proof.
  split.
  - intros Hb.
    assert (Hbits : forall l, l < j -> N.testbit (N.of_nat x) (N.of_nat l) = false).
    { assert (Hg : forall k l0, bst nd k l0 (N.of_nat x) = [] -> forall l, l0 <= l < l0 + k -> N.testbit (N.of_nat x) (N.of_nat l) = false).
      { induction k as [|k IH]; intros l0 H0 l Hl; [lia|]. cbn [bst] in H0.
        destruct (N.testbit (N.of_nat x) (N.of_nat l0)) eqn:E0; [discriminate|].
        destruct (Nat.eq_dec l l0) as [->|]; [exact E0|]. apply (IH (S l0) H0). lia. }
      intros l Hl. apply (Hg j 0 Hb). lia. }
    assert (Hz : (N.of_nat x mod 2 ^ N.of_nat j = 0)%N).
    { apply N.bits_inj. intros l. rewrite N.bits_0. destruct (N.lt_ge_cases l (N.of_nat j)) as [Hlt|Hge].
      - rewrite N.mod_pow2_bits_low by exact Hlt. rewrite <- (N2Nat.id l). apply Hbits. lia.
      - now apply N.mod_pow2_bits_high. }
    rewrite pow2_of_nat, <- Nat2N.inj_mod in Hz. lia.
  - intros Hm. replace j with (j + 0) by lia. rewrite bst_skip; [reflexivity|].
    intros l Hl. cbn [Nat.add]. now apply (testbit_low x j).
Qed.
Lemma bst_in_conv k : forall l0 e l, l0 <= l < l0 + k -> N.testbit e (N.of_nat l) = true -> exists v, In (l, v) (bst nd k l0 e).
Proof.
  induction k as [|k IH]; intros l0 e l Hl Hb; [lia|]. cbn [bst]. destruct (Nat.eq_dec l l0) as [->|Hn].
  - rewrite Hb. eexists. left. reflexivity.
  - destruct (IH (S l0) e l ltac:(lia) Hb) as [v Hv]. exists v. destruct (N.testbit e (N.of_nat l0)); [now right|exact Hv].
Qed.
End BstLevels.

(** ** loops with break *)
Fixpoint loop_nat {S : Type} (k : nat) (body : S -> res (S * bool)) (s : S) : res (S * bool) :=
  match k with
  | O => Ok (s, false)
  | Datatypes.S k' => let* (s, b) := body s in if b then Ok (s, true) else loop_nat k' body s
  end.
Lemma loop_nat_add {S} (body : S -> res (S * bool)) a : forall b s,
  loop_nat (a + b) body s = let* (s, br) := loop_nat a body s in if br then Ok (s, true) else loop_nat b body s.
Proof.
  induction a as [|a IH]; intros b s; cbn [loop_nat Nat.add]; [reflexivity|].
  destruct (body s) as [[s' br]| |]; cbn [bind]; [|reflexivity..]. destruct br; [reflexivity|]. apply IH.
Qed.
Lemma loop_pos_nat {S} (body : S -> res (S * bool)) q : forall s, loop_pos q body s = loop_nat (Pos.to_nat q) body s.
Proof.
  induction q as [q IH|q IH|]; intros s.
  - rewrite Pos2Nat.inj_xI. cbn [loop_pos loop_nat]. destruct (body s) as [[s' br]| |]; cbn [bind]; [|reflexivity..].
    destruct br; [reflexivity|]. replace (2 * Pos.to_nat q) with (Pos.to_nat q + Pos.to_nat q) by lia.
    rewrite loop_nat_add, IH. destruct (loop_nat (Pos.to_nat q) body s') as [[s2 b2]| |]; cbn [bind]; [|reflexivity..].
    destruct b2; [reflexivity|apply IH].
  - rewrite Pos2Nat.inj_xO. cbn [loop_pos]. replace (2 * Pos.to_nat q) with (Pos.to_nat q + Pos.to_nat q) by lia.
    rewrite loop_nat_add, IH. destruct (loop_nat (Pos.to_nat q) body s) as [[s2 b2]| |]; cbn [bind]; [|reflexivity..].
    destruct b2; [reflexivity|apply IH].
  - cbn [loop_pos]. change (Pos.to_nat 1) with 1. cbn [loop_nat]. destruct (body s) as [[s2 b2]| |]; cbn [bind]; [|reflexivity..].
    destruct b2; reflexivity.
Qed.
Lemma loopN_nat {S} (body : S -> res (S * bool)) k s : loopN k body s = loop_nat (N.to_nat k) body s.
Proof. destruct k as [|q]; [reflexivity|]. cbn [loopN]. rewrite loop_pos_nat, positive_N_nat. reflexivity. Qed.

Section Refine.
Context {E : Env}.
Variable p : xmss_params.
Variable Hf : bytes -> bytes.
Hypothesis Hp : params_ok p.
Hypothesis HH : hash_total p Hf.
Notation P := (sp_of p Hf).
Notation n := (p_n p).
Notation H := (tree_height p).
Notation k := (bds_k p).
Notation thc := (thcount p).
Hypothesis Hk : k < H.
Variable U : nat.
Hypothesis HU : Nat.min thc (H - 2) <= 2 * U.

Section One.
Variables (sks seed : bytes) (L T : N).
Hypothesis Hsks : length sks = n.
Hypothesis Hseed : length seed = n.
Notation nd := (node P sks seed L T).
Let Hndl : forall j i, length (nd j i) = n := fun j i => node_length p Hf Hp HH sks seed L T j i.

Definition seg (f : sst) (j : nat) : list (nat * bytes) :=
  match f j with Some x => bst nd j 0 (N.of_nat x) | None => [] end.
Definition segs (f : sst) (a m : nat) : list (nat * bytes) := concat (map (seg f) (seq a m)).
Definition stk (f : sst) (base : list (nat * bytes)) : list (nat * bytes) := segs f 0 thc ++ base.
(** below the instances the stack is empty, or holds the root of the finished tree *)
Definition base_ok (base : list (nat * bytes)) : Prop := length base <= 1 /\ forall a, In a base -> fst a = H.

(** the right neighbour that level j needs next, while signing with leaf q *)
Definition tgt (q j : nat) : nat := 2 * (q / 2 ^ (j + 1) + 1) + 1.
Definition th_ok (q : nat) (f : sst) (j : nat) (t : treehash_inst) : Prop :=
  th_h t < 256 /\ (th_next_idx t < 2 ^ 32)%N /\ th_stackusage t < 256 /\
  match f j with
  | None => th_completed t = 1%N /\ (tgt q j < 2 ^ (H - j) -> th_node t = nd j (N.of_nat (tgt q j)))
  | Some x => th_h t = j /\ th_completed t = 0%N /\ th_next_idx t = N.of_nat x /\ th_stackusage t = length (bst nd j 0 (N.of_nat x))
  end.
Record running (q : nat) (f : sst) (base : list (nat * bytes)) (s : bds_state) : Prop := mkRunning {
  ru_shape : shape p s;
  ru_off : st_stackoffset s = length (stk f base);
  ru_stack : srepr n (st_stack s) (st_stacklevels s) (stk f base);
  ru_th : forall j t, nth_error (st_treehash s) j = Some t -> th_ok q f j t }.

Lemma segs_S f a m : segs f a (S m) = seg f a ++ segs f (S a) m.
Proof. reflexivity. Qed.
Lemma segs_app f a m m' : segs f a (m + m') = segs f a m ++ segs f (a + m) m'.
Proof. unfold segs. rewrite seq_app, map_app, concat_app. reflexivity. Qed.
Lemma segs_in f a m x : In x (segs f a m) -> exists i y, a <= i < a + m /\ f i = Some y /\ In x (bst nd i 0 (N.of_nat y)).
Proof.
  unfold segs. intros Hx. apply in_concat in Hx as (sg & Hsg & Hx). apply in_map_iff in Hsg as (i & <- & Hi).
  apply in_seq in Hi. unfold seg in Hx. destruct (f i) as [y|] eqn:Hfi; [|contradiction]. exists i, y. auto.
Qed.
Lemma segs_nil f a m : (forall i, a <= i < a + m -> seg f i = []) -> segs f a m = [].
Proof.
  revert a. induction m as [|m IH]; intros a Hi; [reflexivity|]. rewrite segs_S, (Hi a) by lia. apply IH. intros; apply Hi; lia.
Qed.
Lemma segs_ext f g a m : (forall i, a <= i < a + m -> f i = g i) -> segs f a m = segs g a m.
Proof.
  revert a. induction m as [|m IH]; intros a Hi; [reflexivity|]. rewrite !segs_S.
  f_equal; [unfold seg; now rewrite (Hi a) by lia|]. apply IH. intros; apply Hi; lia.
Qed.
Lemma segs_sorted q u f m : sinv H thc U q u f -> forall a, lsorted (segs f a m).
Proof.
  intros Hi. induction m as [|m IH]; intros a; [constructor|]. rewrite segs_S. apply lsorted_app; [|apply IH|].
  - unfold seg. destruct (f a); [apply bst_sorted|constructor].
  - intros x y Hx Hy. unfold seg in Hx. destruct (f a) as [ea|] eqn:Ha; [|contradiction].
    apply segs_in in Hy as (i & ei & Hir & Hfi & Hy).
    pose proof (proj1 (bst_in nd _ _ _ _ Hx)) as Hxl.
    apply bst_in in Hy as [Hyl Hyb].
    destruct (Nat.eq_dec (ea mod 2 ^ a) 0) as [E0|E0].
    + rewrite (proj2 (bst_nil_mod nd a ea) E0) in Hx. contradiction.
    + pose proof (si_nest _ _ _ _ _ _ Hi a i ea ei ltac:(lia) Ha Hfi E0) as Hm.
      destruct (Nat.lt_ge_cases (fst y) a) as [Hlt|Hge]; [|lia].
      rewrite (testbit_low ei a (fst y) Hlt Hm) in Hyb. discriminate.
Qed.
Lemma stk_lt q u f base : sinv H thc U q u f -> base_ok base -> forall a, In a (segs f 0 thc) -> fst a + 4 <= H.
Proof.
  intros Hi _ a Ha. apply segs_in in Ha as (i & y & Hir & Hfi & Ha). apply bst_in in Ha as [Ha _].
  pose proof (si_dom _ _ _ _ _ _ Hi _ _ Hfi). lia.
Qed.
Lemma stk_sorted q u f base : sinv H thc U q u f -> base_ok base -> lsorted (stk f base).
Proof.
  intros Hi [Hb1 Hb2]. apply lsorted_app.
  - eapply segs_sorted; eauto.
  - destruct base as [|b [|c base]]; [constructor| |cbn in Hb1; lia]. constructor; [constructor|constructor].
  - intros a b Ha Hb. pose proof (stk_lt q u f base Hi (conj Hb1 Hb2) a Ha). rewrite (Hb2 b Hb). lia.
Qed.
(** room for one more node *)
Lemma stk_room q u f base j x : sinv H thc U q u f -> base_ok base -> f j = Some x -> length (stk f base) < H + 1.
Proof.
  intros Hi Hb Hj. unfold stk. rewrite app_length. pose proof (si_dom _ _ _ _ _ _ Hi _ _ Hj) as [_ HH3].
  pose proof (lsorted_len (segs f 0 thc) (H - 3) (segs_sorted q u f thc Hi 0)) as Hl.
  assert (length (segs f 0 thc) <= H - 3) by (apply Hl; intros a Ha; pose proof (stk_lt q u f base Hi Hb a Ha); lia).
  destruct Hb as [Hb _]. lia.
Qed.

(** ** treehash_update *)
Lemma tu_while_spec j x below s : length (st_stack s) = (H + 1) * n -> length (st_stacklevels s) = H + 1 ->
  forall usage l off a, l <= j -> ones (N.of_nat x) l ->
  usage = length (bst nd (j - l) l (N.of_nat x)) -> off = length (bst nd (j - l) l (N.of_nat x) ++ below) -> off <= H + 1 ->
  srepr n (st_stack s) (st_stacklevels s) (bst nd (j - l) l (N.of_nat x) ++ below) -> ht_ctx a L T ->
  exists l', l' <= j /\ ones (N.of_nat x) l' /\ (l' < j -> N.testbit (N.of_nat x) (N.of_nat l') = false) /\
    treehash_update_while p usage (N.of_nat x) seed s off (nd l (N.of_nat x / 2 ^ N.of_nat l)%N) l a =
      Ok (nd l' (N.of_nat x / 2 ^ N.of_nat l')%N, l', length (bst nd (j - l') l' (N.of_nat x)),
          length (bst nd (j - l') l' (N.of_nat x) ++ below)).
Proof.
  intros Hsl Hll. induction usage as [|u IH]; intros l off a Hl Ho Hus Hoff HoffH Hr Hat.
  - exists l. split; [exact Hl|]. split; [exact Ho|].
    destruct (bst nd (j - l) l (N.of_nat x)) as [|b B] eqn:HB; [|discriminate]. split.
    + intros Hlt. pose proof (bst_view nd j l (N.of_nat x) Hlt) as Hv. rewrite HB in Hv. exact Hv.
    + cbn [treehash_update_while]. rewrite Hoff. reflexivity.
  - destruct (bst nd (j - l) l (N.of_nat x)) as [|[l2 x2] R] eqn:HB; [discriminate|].
    assert (Hlt : l < j).
    { destruct (Nat.eq_dec l j) as [->|]; [|lia]. rewrite Nat.sub_diag in HB. discriminate. }
    pose proof (bst_view nd j l (N.of_nat x) Hlt) as Hv. rewrite HB in Hv. destruct Hv as [Hbt Hbf].
    cbn [app srepr fst snd] in Hr. destruct Hr as (R1 & R2 & R3). cbn [app length] in Hoff. injection Hus as Hus.
    set (m := length (R ++ below)) in *.
    cbn [treehash_update_while]. cbv zeta. subst off. change (S m =? 0) with false. cbv iota.
    replace (S m - 1) with m by lia.
    rewrite (rdc_ok (st_stacklevels s) m 0%N), bind_ok by lia. rewrite R2.
    destruct (N.eqb_spec (N.of_nat l2) (N.of_nat l)) as [He|Hne].
    + apply Nat2N.inj in He. subst l2.
      assert (Hbit : N.testbit (N.of_nat x) (N.of_nat l) = true).
      { destruct (N.testbit (N.of_nat x) (N.of_nat l)); [reflexivity|]. specialize (Hbf eq_refl). lia. }
      destruct (Hbt Hbit) as (_ & Hx2 & HR). clear Hbt Hbf.
      rewrite (rd_ck n (st_stack s) m (H + 1)) by (assumption || lia). rewrite bind_ok, R1, Hx2.
      set (t := (N.of_nat x / 2 ^ N.of_nat (S l))%N).
      pose proof (carry_node (N.of_nat x) l Hbit) as Hodd. cbv zeta in Hodd. fold t in Hodd. rewrite Hodd.
      replace (2 * t + 1 - 1)%N with (2 * t)%N by lia.
      replace (N.shiftr (N.of_nat x) (N.of_nat (l + 1))) with t by (unfold t; rewrite N.shiftr_div_pow2; f_equal; f_equal; lia).
      destruct (hash_nodes p Hf Hp HH sks seed L T Hseed l t a Hat) as [a' [Hth Hat']]. rewrite Hth, bind_ok.
      replace (l + 1) with (S l) by lia.
      destruct (IH (S l) m a') as (l' & Hl' & Ho' & Hb' & Heq).
      * lia.
      * now apply ones_S.
      * rewrite <- HR. exact Hus.
      * rewrite <- HR. reflexivity.
      * lia.
      * rewrite <- HR. exact R3.
      * exact Hat'.
      * exists l'. split; [exact Hl'|]. split; [exact Ho'|]. split; [exact Hb'|exact Heq].
    + assert (Hbit : N.testbit (N.of_nat x) (N.of_nat l) = false).
      { destruct (N.testbit (N.of_nat x) (N.of_nat l)); [|reflexivity]. destruct (Hbt eq_refl). congruence. }
      exists l. split; [exact Hl|]. split; [exact Ho|]. split; [auto|]. rewrite HB. cbn [app length]. fold m. rewrite Hus. reflexivity.
Qed.

(** instances below the chosen one occupy nothing *)
Lemma chosen_top f j : chosen f j -> forall i, i < j -> seg f i = [].
Proof.
  intros Hc i Hi. unfold seg. destruct (f i) as [y|] eqn:Hfi; [|reflexivity]. apply bst_nil_mod.
  destruct Hc as [(e & _ & _ & H2 & _)|(e & _ & _ & H2 & H3)]; [now apply (H2 i)|].
  apply (mod0_pow y i j); [lia|]. apply (H3 i y Hfi). now apply (H2 i).
Qed.
Lemma stk_chosen f j base x : chosen f j -> f j = Some x -> j < thc ->
  stk f base = bst nd j 0 (N.of_nat x) ++ segs f (S j) (thc - S j) ++ base.
Proof.
  intros Hc Hj Hlt. unfold stk. replace thc with (j + S (thc - S j)) at 1 by lia.
  rewrite segs_app, (segs_nil f 0 j) by (intros i Hi; apply chosen_top with (j := j); [exact Hc|lia]).
  cbn [app Nat.add]. rewrite segs_S. unfold seg. rewrite Hj. now rewrite app_assoc.
Qed.
Lemma stk_step f j base : chosen f j -> j < thc ->
  stk (sstep f j) base = seg (sstep f j) j ++ segs f (S j) (thc - S j) ++ base.
Proof.
  intros Hc Hlt. unfold stk. replace thc with (j + S (thc - S j)) at 1 by lia.
  rewrite segs_app, (segs_nil (sstep f j) 0 j).
  - cbn [app Nat.add]. rewrite segs_S, (segs_ext (sstep f j) f (S j)); [now rewrite app_assoc|].
    intros i Hi. apply sstep_other. lia.
  - intros i Hi. unfold seg. rewrite sstep_other by lia. apply (chosen_top f j Hc). lia.
Qed.

Definition same_rest (s s' : bds_state) : Prop :=
  st_auth s' = st_auth s /\ st_keep s' = st_keep s /\ st_retain s' = st_retain s /\ st_next_leaf s' = st_next_leaf s.

Lemma treehash_update_spec q u f base s j sub : sinv H thc U q u f -> base_ok base -> running q f base s -> chosen f j ->
  sub_ctx L T sub ->
  exists s', treehash_update p j s sks seed sub = Ok s' /\ running q (sstep f j) base s' /\ same_rest s s'.
Proof.
  intros Hi Hbase [Hs Hoff Hr Hth] Hc (Hs0 & Hs1 & Hs2). pose proof (po_th p Hp) as HH30.
  assert (Hx : exists x, f j = Some x) by (destruct Hc as [(e & He & _)|(e & He & _)]; eauto). destruct Hx as [x Hx].
  pose proof (si_dom _ _ _ _ _ _ Hi _ _ Hx) as [Hjt Hj3]. pose proof (si_lt _ _ _ _ _ _ Hi _ _ Hx) as HxH.
  assert (Hjl : j < length (st_treehash s)) by (rewrite (sh_th p s Hs); exact Hjt).
  destruct (nth_error (st_treehash s) j) as [t|] eqn:Ht; [|apply nth_error_None in Ht; lia].
  destruct (Hth j t Ht) as (T1 & T2 & T3 & T4). rewrite Hx in T4. destruct T4 as (Th & T4 & T5 & T6).
  unfold treehash_update. cbv zeta. rewrite (rdc_some _ _ t Ht), bind_ok, T5, T6.
  destruct (gen_leaf_wots_spec p Hf Hp HH sks seed L T (N.of_nat x)
     (set_ltree_addr (set_type (copy_subtree_addr addr_zero sub) 1) (N.of_nat x))
     (set_ots_addr (set_type (copy_subtree_addr addr_zero sub) 0) (N.of_nat x)))
    as (la' & oa' & h' & Hgl & _ & _); [exact Hsks|exact Hseed|repeat split; assumption|reflexivity|split; [repeat split; assumption|reflexivity]|].
  rewrite Hgl, bind_ok. clear Hgl la' oa' h'.
  change (leaf P sks seed L T (N.of_nat x)) with (nd 0 (N.of_nat x)).
  pose proof (stk_chosen f j base x Hc Hx Hjt) as Hstk. set (below := segs f (S j) (thc - S j) ++ base) in *.
  pose proof (stk_room q u f base j x Hi Hbase Hx) as Hroom.
  rewrite Hstk in Hoff, Hr, Hroom.
  destruct (tu_while_spec j x below s (sh_stack p s Hs) (sh_levels p s Hs) (length (bst nd j 0 (N.of_nat x))) 0 (st_stackoffset s)
     (set_type (copy_subtree_addr addr_zero sub) 2)) as (l & Hl & Ho & Hb & Heq).
  1: lia. 1: apply ones_0. 1: rewrite Nat.sub_0_r; reflexivity. 1: rewrite Nat.sub_0_r; exact Hoff. 1: rewrite Hoff; lia.
  1: rewrite Nat.sub_0_r; exact Hr. 1: repeat split; assumption.
  replace (N.of_nat x / 2 ^ N.of_nat 0)%N with (N.of_nat x) in Heq by (change (2 ^ N.of_nat 0)%N with 1%N; now rewrite N.div_1_r).
  rewrite Heq, bind_ok. clear Heq. rewrite Th.
  pose proof (stk_step f j base Hc Hjt) as Hstk'. fold below in Hstk'. pose proof (po_th p Hp) as HH30'.
  assert (Hrb : srepr n (st_stack s) (st_stacklevels s) below) by (exact (srepr_app n _ _ _ _ Hr)).
  assert (Hlast : forall i u0 (ti : treehash_inst) l0, i <> j -> nth_error (upd (st_treehash s) j l0) i = Some u0 -> nth_error (st_treehash s) i = Some u0).
  { intros i u0 _ l0 Hn Hu. rewrite nth_error_upd_other in Hu by auto. exact Hu. }
  destruct (Nat.eqb_spec l j) as [->|Hlj].
  - rewrite Nat.sub_diag. cbn [bst app length].
    assert (Hmod : (x + 1) mod 2 ^ j = 0) by (now apply ones_nat_mod).
    assert (Hsj : sstep f j j = None) by (unfold sstep; rewrite Nat.eqb_refl, Hx, Hmod; reflexivity).
    rewrite wr_all by (auto; rewrite (sh_nodes p s Hs j t Ht); apply Hndl). rewrite bind_ok. stc.
    rewrite wrc_ok, bind_ok by exact Hjl. eexists. split; [reflexivity|]. split; [|repeat split].
    assert (Hsk : stk (sstep f j) base = below) by (rewrite Hstk'; unfold seg; rewrite Hsj; reflexivity).
    constructor; stc.
    + destruct Hs. constructor; stc; try assumption; [now rewrite upd_length|].
      intros i ui Hu. destruct (Nat.eq_dec i j) as [->|Hn].
      * rewrite nth_error_upd_same in Hu by exact Hjl. injection Hu as <-. apply Hndl.
      * apply (Hlast i ui ui _ Hn) in Hu. eauto.
    + rewrite Hsk. reflexivity.
    + rewrite Hsk. exact Hrb.
    + intros i ui Hu. destruct (Nat.eq_dec i j) as [->|Hn].
      * rewrite nth_error_upd_same in Hu by exact Hjl. injection Hu as <-. unfold th_ok. stc. rewrite Hsj.
        split; [lia|]. split; [rewrite <- T5; exact T2|]. split; [lia|]. split; [reflexivity|]. intros _.
        unfold tgt. rewrite <- (si_tgt _ _ _ _ _ _ Hi _ _ Hx). rewrite Nat2N.inj_div, pow2_of_nat. reflexivity.
      * apply (Hlast i ui ui _ Hn) in Hu. unfold th_ok. rewrite sstep_other by exact Hn. apply Hth. exact Hu.
  - assert (Hlt : l < j) by lia. specialize (Hb Hlt).
    assert (Hbst : bst nd j 0 (N.of_nat (x + 1)) = (l, nd l (N.of_nat x / 2 ^ N.of_nat l)%N) :: bst nd (j - l) l (N.of_nat x)).
    { replace (N.of_nat (x + 1)) with (N.of_nat x + 1)%N by lia. rewrite (bst_succ nd j (N.of_nat x) l Ho Hb Hlt). f_equal.
      replace (j - l) with (S (j - S l)) by lia. cbn [bst]. rewrite Hb. reflexivity. }
    assert (Hmod : (x + 1) mod 2 ^ j <> 0).
    { intros Hm. apply (bst_nil_mod nd) in Hm. rewrite Hbst in Hm. discriminate. }
    assert (Hsj : sstep f j j = Some (x + 1)).
    { unfold sstep. rewrite Nat.eqb_refl, Hx. replace ((x + 1) mod 2 ^ j =? 0) with false by (symmetry; now apply Nat.eqb_neq). reflexivity. }
    set (R := bst nd (j - l) l (N.of_nat x)) in *.
    assert (Hsk : stk (sstep f j) base = (l, nd l (N.of_nat x / 2 ^ N.of_nat l)%N) :: (R ++ below)).
    { rewrite Hstk'. unfold seg. rewrite Hsj, Hbst. reflexivity. }
    assert (Hsi' : sinv H thc U q (u - 1) (sstep f j)) by (now apply (sstep_sinv H thc U)).
    pose proof (stk_room q (u - 1) (sstep f j) base j (x + 1) Hsi' Hbase Hsj) as Hroom'. rewrite Hsk in Hroom'. cbn [length] in Hroom'.
    assert (HrR : srepr n (st_stack s) (st_stacklevels s) (R ++ below)).
    { assert (Hsuf : exists A, bst nd j 0 (N.of_nat x) = A ++ R).
      { assert (Hg : forall m l0, l0 + m = l -> exists A, bst nd (j - l0) l0 (N.of_nat x) = A ++ R).
        { induction m as [|m IHm]; intros l0 Hl0.
          - exists []. unfold R. replace l0 with l by lia. reflexivity.
          - destruct (IHm (S l0) ltac:(lia)) as [A HA]. replace (j - l0) with (S (j - S l0)) by lia. cbn [bst].
            rewrite HA. destruct (N.testbit (N.of_nat x) (N.of_nat l0)); [eexists (_ :: A); reflexivity|exists A; reflexivity]. }
        destruct (Hg l 0 eq_refl) as [A HA]. rewrite Nat.sub_0_r in HA. eauto. }
      destruct Hsuf as [A HA]. rewrite HA, <- app_assoc in Hr. exact (srepr_app n _ _ _ _ Hr). }
    stc. rewrite (wr_ck n (st_stack s) (length (R ++ below)) (H + 1)) by (apply (sh_stack p s Hs) || apply Hndl || lia). rewrite bind_ok.
    rewrite wrc_ok, bind_ok by (rewrite (sh_levels p s Hs); lia). rewrite wrc_ok, bind_ok by exact Hjl.
    assert (Hu8 : u8 (N.of_nat l) = N.of_nat l) by (unfold u8; apply N.mod_small; lia). rewrite Hu8.
    assert (Hxb : (N.of_nat x + 1 < 2 ^ 32)%N).
    { assert (2 ^ H <= 2 ^ 30) by (apply Nat.pow_le_mono_r; lia).
      assert (N.of_nat (2 ^ 30) + 1 < 2 ^ 32)%N by (rewrite <- pow2_of_nat; now vm_compute). lia. }
    assert (Hu64 : u64 (N.of_nat x + 1) = N.of_nat (x + 1)).
    { unfold u64. rewrite N.mod_small; [lia|]. assert (2 ^ 32 < 2 ^ 64)%N by (now vm_compute). lia. }
    rewrite Hu64.
    assert (Hlen : (length R + 1) mod 256 = length (bst nd j 0 (N.of_nat (x + 1)))).
    { rewrite Hbst. cbn [length]. rewrite app_length in Hroom'. rewrite Nat.mod_small by lia. lia. }
    rewrite Hlen. eexists. split; [reflexivity|]. split; [|repeat split].
    constructor; stc.
    + destruct Hs. constructor; stc; try assumption.
      * apply (setck_length n); (assumption || apply Hndl || lia).
      * now rewrite upd_length.
      * now rewrite upd_length.
      * intros i ui Hu. destruct (Nat.eq_dec i j) as [->|Hn].
        -- rewrite nth_error_upd_same in Hu by exact Hjl. injection Hu as <-. stc. eauto.
        -- apply (Hlast i ui ui _ Hn) in Hu. eauto.
    + rewrite Hsk. cbn [length]. lia.
    + rewrite Hsk. apply (srepr_push n _ _ (R ++ below) (H + 1)); (apply (sh_stack p s Hs) || apply (sh_levels p s Hs) || apply Hndl || assumption || lia).
    + intros i ui Hu. destruct (Nat.eq_dec i j) as [->|Hn].
      * rewrite nth_error_upd_same in Hu by exact Hjl. injection Hu as <-. unfold th_ok. stc. rewrite Hsj.
        split; [lia|]. split; [lia|]. split; [rewrite <- Hlen; apply Nat.mod_upper_bound; lia|].
        split; [reflexivity|]. split; [exact T4|]. split; reflexivity.
      * apply (Hlast i ui ui _ Hn) in Hu. unfold th_ok. rewrite sstep_other by exact Hn. apply Hth. exact Hu.
Qed.

(** ** Which instance is updated next *)
Lemma fth : f_tree_height p = N.of_nat H.
Proof. unfold tree_height. now rewrite N2Nat.id. Qed.

Lemma minheight_spec s t a R : lsorted (a :: R) -> fst a < H -> 1 <= th_stackusage t <= length (a :: R) ->
  length (a :: R) <= length (st_stacklevels s) -> st_stackoffset s = length (a :: R) ->
  srepr n (st_stack s) (st_stacklevels s) (a :: R) ->
  treehash_minheight_on_stack p s t = Ok (N.of_nat (fst a)).
Proof.
  intros Hso Ha Hu Hlen Hoff Hr. unfold treehash_minheight_on_stack. rewrite fth.
  match goal with |- forN ?k0 0 ?body ?s0 = _ =>
    destruct (forN_inv (fun i r => r = N.of_nat (if i =? 0 then H else fst a)) k0 0 body s0) as [r [Heq Hr']] end.
  - intros i r Hi ->. cbn [Nat.add] in Hi.
    replace (st_stackoffset s <=? i) with false by (symmetry; apply Nat.leb_gt; lia).
    assert (Hin : i < length (a :: R)) by lia.
    rewrite (rdc_ok _ _ 0%N), bind_ok by lia. rewrite Hoff, (srepr_nth n _ _ (a :: R) Hr i a Hin).
    pose proof (sorted_nth a R Hso i a Hin) as Hge.
    eexists. split; [reflexivity|]. destruct i as [|i]; cbn [Nat.eqb].
    + cbn [nth]. replace (N.of_nat (fst a) <? N.of_nat H)%N with true by (symmetry; apply N.ltb_lt; lia). reflexivity.
    + replace (N.of_nat (fst (nth (S i) (a :: R) a)) <? N.of_nat (fst a))%N with false by (symmetry; apply N.ltb_ge; lia). reflexivity.
  - reflexivity.
  - rewrite Heq, Hr'. cbn [Nat.add]. destruct (th_stackusage t); [lia|]. reflexivity.
Qed.

Definition lowf (f : sst) (tl i : nat) : nat :=
  match f i with None => H | Some x => if x mod 2 ^ i =? 0 then i else tl end.

Lemma select_spec q u f base s : sinv H thc U q u f -> base_ok base -> running q f base s ->
  exists r, select_treehash p s = Ok r /\ match r with None => forall i, f i = None | Some j => chosen f j end.
Proof.
  intros Hi Hbase [Hs Hoff Hr Hth].
  pose proof (stk_sorted q u f base Hi Hbase) as Hso.
  set (tl := match segs f 0 thc with a :: _ => fst a | [] => 0 end).
  assert (Hne : forall t e, f t = Some e -> e mod 2 ^ t <> 0 -> exists a R, segs f 0 thc = a :: R /\ fst a = tl /\ tl < H).
  { intros t e Ht Hm. pose proof (si_dom _ _ _ _ _ _ Hi _ _ Ht) as [Htt _].
    destruct (segs f 0 thc) as [|a R] eqn:HS.
    - exfalso. replace thc with (t + S (thc - S t)) in HS by lia. rewrite segs_app, segs_S in HS.
      apply app_eq_nil in HS as [_ HS]. apply app_eq_nil in HS as [HS _]. unfold seg in HS. cbn [Nat.add] in HS. rewrite Ht in HS.
      apply bst_nil_mod in HS. congruence.
    - exists a, R. split; [reflexivity|]. split; [reflexivity|]. unfold tl.
      pose proof (stk_lt q u f base Hi Hbase a) as Hl. rewrite HS in Hl. specialize (Hl (or_introl eq_refl)). lia. }
  (* every started instance has only nodes at level tl and above *)
  assert (Hmin : forall t e l v, f t = Some e -> In (l, v) (bst nd t 0 (N.of_nat e)) -> tl <= l).
  { intros t e l v Ht Hin. pose proof (si_dom _ _ _ _ _ _ Hi _ _ Ht) as [Htt _].
    assert (Hin' : In (l, v) (segs f 0 thc)).
    { unfold segs. apply in_concat. exists (seg f t). split; [|unfold seg; rewrite Ht; exact Hin].
      apply in_map. apply in_seq. lia. }
    unfold tl. unfold stk in Hso. destruct (segs f 0 thc) as [|a R] eqn:HS; [contradiction|].
    exact (sorted_head R base a Hso (l, v) Hin'). }
  assert (F1 : forall t e, f t = Some e -> e mod 2 ^ t <> 0 -> e mod 2 ^ tl = 0).
  { intros t e Ht Hm. apply (bst_nil_mod nd). destruct (bst nd tl 0 (N.of_nat e)) as [|[l v] R] eqn:HB; [reflexivity|exfalso].
    assert (Hlv : In (l, v) (bst nd tl 0 (N.of_nat e))) by (rewrite HB; now left).
    apply bst_in in Hlv as [Hl1 Hl2]. cbn [fst] in *.
    destruct (bst nd t 0 (N.of_nat e)) as [|[l1 v1] R1] eqn:HB1; [apply bst_nil_mod in HB1; congruence|].
    assert (Hl1v : In (l1, v1) (bst nd t 0 (N.of_nat e))) by (rewrite HB1; now left).
    pose proof (Hmin t e l1 v1 Ht Hl1v) as Hge. apply bst_in in Hl1v as [Hl3 _]. cbn [fst] in *.
    destruct (bst_in_conv nd t 0 (N.of_nat e) l ltac:(lia) Hl2) as [v2 Hv2].
    pose proof (Hmin t e l v2 Ht Hv2). lia. }
  assert (Hlow : forall i t, nth_error (st_treehash s) i = Some t ->
     (if negb (th_completed t =? 0)%N then Ok (f_tree_height p)
      else if th_stackusage t =? 0 then Ok (N.of_nat i) else treehash_minheight_on_stack p s t) = Ok (N.of_nat (lowf f tl i))).
  { intros i t Ht. destruct (Hth i t Ht) as (T1 & T2 & T3 & T4). unfold lowf. destruct (f i) as [x|] eqn:Hfi.
    - destruct T4 as (_ & T4 & T5 & T6). rewrite T4, T6. cbn [N.eqb negb].
      destruct (Nat.eqb_spec (x mod 2 ^ i) 0) as [E0|E0].
      + rewrite (proj2 (bst_nil_mod nd i x) E0). reflexivity.
      + destruct (Hne i x Hfi E0) as (a & R & HS & Hatl & HtlH).
        destruct (bst nd i 0 (N.of_nat x)) as [|b B] eqn:HB; [apply bst_nil_mod in HB; congruence|].
        cbn [length Nat.eqb]. rewrite <- HB in T6.
        assert (Hsk : stk f base = a :: (R ++ base)) by (unfold stk; rewrite HS; reflexivity).
        rewrite Hsk in Hso, Hoff, Hr. rewrite <- Hatl.
        apply (minheight_spec s t a (R ++ base)); try assumption; try lia.
        * rewrite T6. split; [rewrite HB; cbn; lia|]. rewrite <- Hsk. unfold stk. rewrite app_length.
          pose proof (si_dom _ _ _ _ _ _ Hi _ _ Hfi) as [Hit _].
          replace thc with (i + S (thc - S i)) by lia. rewrite segs_app, segs_S. cbn [Nat.add].
          unfold seg at 1. rewrite Hfi, !app_length. lia.
        * rewrite <- Hsk, (sh_levels p s Hs). pose proof (stk_room q u f base i x Hi Hbase Hfi). lia.
    - destruct T4 as (T4 & _). rewrite T4. cbn [N.eqb negb]. now rewrite fth. }
  unfold select_treehash. rewrite (th_count_ok p Hk), bind_ok, fth.
  match goal with |- context [forN ?k0 0 ?body ?s0] =>
    destruct (forN_inv (fun i '(level, lmin) => exists m, lmin = N.of_nat m /\ m <= H /\ (forall t, t < i -> m <= lowf f tl t) /\
       match level with None => m = H | Some j => j < i /\ m = lowf f tl j /\ m < H /\ (forall t, t < j -> m < lowf f tl t) end)
       k0 0 body s0) as [[level lmin] [Heq Hinv]] end.
  - intros i [level lmin] Hir (m & -> & Hm & Hall & Hlev). cbv beta iota zeta. cbn [Nat.add] in Hir.
    destruct (nth_error (st_treehash s) i) as [t|] eqn:Ht;
      [|apply nth_error_None in Ht; rewrite (sh_th p s Hs) in Ht; lia].
    rewrite (rdc_some _ _ t Ht), bind_ok. rewrite <- fth. rewrite (Hlow i t Ht), bind_ok.
    destruct (N.ltb_spec (N.of_nat (lowf f tl i)) (N.of_nat m)) as [Hlt|Hge].
    + eexists. split; [reflexivity|]. cbv beta iota. exists (lowf f tl i). split; [reflexivity|]. split; [lia|]. split.
      * intros t' Ht'. destruct (Nat.eq_dec t' i) as [->|]; [lia|]. specialize (Hall t' ltac:(lia)). lia.
      * split; [lia|]. split; [reflexivity|]. split; [lia|]. intros t' Ht'. specialize (Hall t' ltac:(lia)). lia.
    + eexists. split; [reflexivity|]. cbv beta iota. exists m. split; [reflexivity|]. split; [lia|]. split.
      * intros t' Ht'. destruct (Nat.eq_dec t' i) as [->|]; [lia|]. apply Hall. lia.
      * destruct level as [j|]; [|exact Hlev]. destruct Hlev as (A1 & A2 & A3 & A4). split; [lia|]. auto.
  - exists H. split; [reflexivity|]. split; [lia|]. split; [lia|reflexivity].
  - rewrite Heq, bind_ok. clear Heq. exists level. split; [reflexivity|].
    destruct Hinv as (m & _ & Hm & Hall & Hlev). cbn [Nat.add] in Hall.
    assert (Hall' : forall t e, f t = Some e -> m <= lowf f tl t).
    { intros t e Ht. apply Hall. exact (proj1 (si_dom _ _ _ _ _ _ Hi _ _ Ht)). }
    destruct level as [j|].
    + destruct Hlev as (Hjt & Hmj & HmH & Hbefore). unfold lowf in Hmj.
      destruct (f j) as [e|] eqn:Hfj; [|lia].
      destruct (Nat.eqb_spec (e mod 2 ^ j) 0) as [E0|E0].
      * right. exists e. split; [exact Hfj|]. split; [exact E0|]. split.
        -- intros t e' Ht Hft Hz. specialize (Hbefore t Ht). unfold lowf in Hbefore. rewrite Hft, Hz in Hbefore. cbn [Nat.eqb] in Hbefore. lia.
        -- intros t e' Hft Hnz. pose proof (Hall' t e' Hft) as Hge. unfold lowf in Hge. rewrite Hft in Hge.
           replace (e' mod 2 ^ t =? 0) with false in Hge by (symmetry; now apply Nat.eqb_neq).
           apply (mod0_pow e' j tl); [lia|]. now apply (F1 t).
      * left. exists e. split; [exact Hfj|]. split; [exact E0|].
        assert (Hbef : forall t e', t < j -> f t = Some e' -> e' mod 2 ^ t = 0).
        { intros t e' Ht Hft. specialize (Hbefore t Ht). unfold lowf in Hbefore. rewrite Hft in Hbefore.
          destruct (Nat.eqb_spec (e' mod 2 ^ t) 0) as [Hz|Hz]; [exact Hz|lia]. }
        split; [exact Hbef|].
        (* the top node belongs to instance j *)
        assert (Htop : N.testbit (N.of_nat e) (N.of_nat tl) = true).
        { destruct (Hne j e Hfj E0) as (a & R & HS & Hatl & HtlH).
          replace thc with (j + S (thc - S j)) in HS by lia. rewrite segs_app, segs_S in HS. cbn [Nat.add] in HS.
          rewrite (segs_nil f 0 j) in HS.
          2:{ intros i Hi0. unfold seg. destruct (f i) as [y|] eqn:Hfi; [|reflexivity]. apply bst_nil_mod. apply (Hbef i y); [lia|exact Hfi]. }
          cbn [app] in HS. unfold seg in HS. rewrite Hfj in HS.
          destruct (bst nd j 0 (N.of_nat e)) as [|b B] eqn:HB; [apply bst_nil_mod in HB; congruence|].
          cbn [app] in HS. injection HS as -> _.
          assert (Hb : In a (bst nd j 0 (N.of_nat e))) by (rewrite HB; now left). apply bst_in in Hb as [_ Hb]. rewrite Hatl in Hb. exact Hb. }
        intros t e' Hft Hz Hmz. pose proof (Hall' t e' Hft) as Hge. unfold lowf in Hge. rewrite Hft, Hz in Hge. cbn [Nat.eqb] in Hge.
        assert (Hlt : tl < t).
        { destruct (Nat.lt_trichotomy t j) as [Hc|[Hc|Hc]].
          - specialize (Hbefore t Hc). unfold lowf in Hbefore. rewrite Hft, Hz in Hbefore. cbn [Nat.eqb] in Hbefore. lia.
          - subst t. congruence.
          - assert (tl < j); [|lia].
            destruct (bst nd j 0 (N.of_nat e)) as [|[l1 v1] R1] eqn:HB1; [apply bst_nil_mod in HB1; congruence|].
            assert (Hl1v : In (l1, v1) (bst nd j 0 (N.of_nat e))) by (rewrite HB1; now left).
            pose proof (Hmin j e l1 v1 Hfj Hl1v). apply bst_in in Hl1v as [Hl3 _]. cbn [fst] in Hl3. lia. }
        rewrite (testbit_low e t tl Hlt Hmz) in Htop. discriminate.
    + intros i. destruct (f i) as [x|] eqn:Hfi; [exfalso|reflexivity].
      pose proof (Hall' i x Hfi) as Hge. pose proof (si_dom _ _ _ _ _ _ Hi _ _ Hfi) as [D1 D2].
      unfold lowf in Hge. rewrite Hfi in Hge. destruct (Nat.eqb_spec (x mod 2 ^ i) 0) as [E0|E0]; [lia|].
      destruct (Hne i x Hfi E0) as (_ & _ & _ & _ & Hlt). lia.
Qed.

(** ** bds_treehash_update *)
Lemma via_char_small x : (x < 128)%N -> via_char x = x.
Proof.
  intros Hx. unfold via_char. cbv zeta. rewrite N.mod_small by lia.
  replace (x <? 128)%N with true by (symmetry; now apply N.ltb_lt). reflexivity.
Qed.

Section Loop.
Variables (q : nat) (base : list (nat * bytes)) (sub : addr).
Hypothesis Hbase : base_ok base.
Hypothesis Hsub : sub_ctx L T sub.
Let body := fun '(s, used) =>
      let* sel := select_treehash p s in
      match sel with
      | None => Ok ((s, used), true)
      | Some j => let* s := treehash_update p j s sks seed sub in
                  Ok ((s, (used + 1)%N), false)
      end.
Lemma btu_loop : forall k1 used s u f, sinv H thc U q u f -> running q f base s ->
    exists s' f' r b, loop_nat k1 body (s, N.of_nat used) = Ok (s', N.of_nat (used + (k1 - r)), b) /\ r <= k1 /\
      sinv H thc U q (u - (k1 - r)) f' /\ running q f' base s' /\ same_rest s s' /\ (0 < r -> forall i, f' i = None) /\
      tw thc f' + (k1 - r) = tw thc f.
Proof.
  induction k1 as [|k1 IH]; intros used s1 u1 f1 Hi1 Hr1.
  - exists s1, f1, 0, false. cbn [loop_nat]. rewrite Nat.sub_0_r, Nat.add_0_r, Nat.sub_0_r.
    split; [reflexivity|]. split; [lia|]. split; [exact Hi1|]. split; [exact Hr1|]. split; [repeat split|]. split; lia.
  - cbn [loop_nat]. unfold body at 1. cbv beta iota.
    destruct (select_spec q u1 f1 base s1 Hi1 Hbase Hr1) as (r & Hsel & Hch). rewrite Hsel, bind_ok.
    destruct r as [j|].
    + destruct (treehash_update_spec q u1 f1 base s1 j sub Hi1 Hbase Hr1 Hch Hsub) as (s2 & Hup & Hr2 & Hsr).
      rewrite Hup, !bind_ok. replace (N.of_nat used + 1)%N with (N.of_nat (used + 1)) by lia.
      destruct (IH (used + 1) s2 (u1 - 1) (sstep f1 j) (sstep_sinv H thc U HU q u1 f1 j Hi1 Hch) Hr2)
        as (s' & f' & r & b & Heq & Hrk & Hi' & Hr' & Hsr' & Hz & Hw).
      pose proof (tw_step H thc U HU q u1 f1 j Hi1 Hch) as Hw1.
      exists s', f', r, b. split; [rewrite Heq; do 3 f_equal; lia|]. split; [lia|].
      split; [replace (u1 - (S k1 - r)) with (u1 - 1 - (k1 - r)) by lia; exact Hi'|]. split; [exact Hr'|].
      split; [|split; [exact Hz|lia]]. destruct Hsr as (A1 & A2 & A3 & A4). destruct Hsr' as (B1 & B2 & B3 & B4).
      split; [congruence|]. split; [congruence|]. split; congruence.
    + rewrite bind_ok. exists s1, f1, (S k1), true. rewrite Nat.sub_diag, Nat.add_0_r, Nat.sub_0_r.
      split; [reflexivity|]. split; [lia|]. split; [exact Hi1|]. split; [exact Hr1|]. split; [repeat split|]. split; [auto|lia].
Qed.
Lemma bds_treehash_update_spec u f s m : sinv H thc U q u f -> running q f base s -> m < 128 ->
  exists s' f' r, bds_treehash_update p s (N.of_nat m) sks seed sub = Ok (s', N.of_nat r) /\
    r <= m /\ sinv H thc U q (u - (m - r)) f' /\ running q f' base s' /\ same_rest s s' /\ (0 < r -> forall i, f' i = None) /\
    tw thc f' + (m - r) = tw thc f.
Proof.
  intros Hi Hru Hm. unfold bds_treehash_update. rewrite loopN_nat, Nat2N.id. fold body.
  destruct (btu_loop m 0 s u f Hi Hru) as (s' & f' & r & b & Heq & Hrk & Hi' & Hr' & Hsr' & Hz & Hw).
  change 0%N with (N.of_nat 0). rewrite Heq, bind_ok. exists s', f', r. split.
  - rewrite via_char_small by lia. do 2 f_equal. lia.
  - repeat (split; [assumption|]). assumption.
Qed.
(** with more updates than there is work everything completes *)
Lemma bds_treehash_update_all u f s m : sinv H thc U q u f -> running q f base s -> tw thc f < N.to_nat m ->
  exists s' f' r, bds_treehash_update p s m sks seed sub = Ok (s', r) /\
    sinv H thc U q 0 f' /\ running q f' base s' /\ same_rest s s' /\ (forall i, f' i = None) /\ r = via_char (m - N.of_nat (tw thc f)).
Proof.
  intros Hi Hru Hm. unfold bds_treehash_update. rewrite loopN_nat. fold body.
  generalize dependent (N.to_nat m). intros k1 Hk1.
  destruct (btu_loop k1 0 s u f Hi Hru) as (s' & f' & r & b & Heq & Hrk & Hi' & Hr' & Hsr' & Hz & Hw).
  assert (Hn : forall i, f' i = None) by (apply Hz; lia).
  change 0%N with (N.of_nat 0). rewrite Heq, bind_ok. exists s', f'. eexists. split; [reflexivity|].
  split; [|split; [exact Hr'|split; [exact Hsr'|split; [exact Hn|]]]].
  - constructor; intros; rewrite Hn in *; discriminate.
  - rewrite (tw_none thc f' Hn) in Hw. do 2 f_equal. f_equal. lia.
Qed.
End Loop.
End One.
End Refine.
