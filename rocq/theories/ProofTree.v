(** The treehash of xmss_core.c against the specification: stacks and binary counters. *)
From Verif Require Import Base Lib SpecRfc ModelUtils ModelParams ModelHash ModelWots ModelCommons ModelCore
  ProofUtils ProofHash ProofWots ProofCommons.

(** ** A stack kept in an array: [S] lists the elements, top first *)
Definition repr {A} (cs S : list A) : Prop := firstn (length S) cs = rev S.

Lemma repr_len {A} (cs S : list A) : repr cs S -> length S <= length cs.
Proof.
  unfold repr. intros Hr. apply (f_equal (@length A)) in Hr. rewrite firstn_length, rev_length in Hr. lia.
Qed.
Lemma repr_nil {A} (cs : list A) : repr cs [].
Proof. reflexivity. Qed.
Lemma repr_push {A} (cs S : list A) x : repr cs S -> length S < length cs -> repr (upd cs (length S) x) (x :: S).
Proof. unfold repr. intros Hr Hl. cbn [length rev]. rewrite firstn_S_upd by exact Hl. now rewrite Hr. Qed.
Lemma repr_pop {A} (cs S : list A) x : repr cs (x :: S) -> repr cs S.
Proof.
  intros Hr. pose proof (repr_len _ _ Hr) as Hl. unfold repr in *. cbn [length rev] in *.
  rewrite (firstn_S_nth x) in Hr by lia. now apply app_inj_tail in Hr.
Qed.
Lemma repr_top {A} (cs S : list A) x d : repr cs (x :: S) -> nth (length S) cs d = x.
Proof.
  intros Hr. pose proof (repr_len _ _ Hr) as Hl. unfold repr in *. cbn [length rev] in *.
  rewrite (firstn_S_nth d) in Hr by lia. now apply app_inj_tail in Hr.
Qed.
Lemma repr_set {A} (cs S : list A) x y : repr cs (x :: S) -> repr (upd cs (length S) y) (y :: S).
Proof. intros Hr. pose proof (repr_len _ _ Hr) as Hl. apply repr_push; [now apply repr_pop in Hr|exact Hl]. Qed.
Lemma repr_keep {A} (cs S : list A) x i : repr cs S -> length S <= i -> repr (upd cs i x) S.
Proof. unfold repr. intros Hr Hl. now rewrite firstn_upd_ge. Qed.

(** ** Arithmetic of node indices *)
Lemma pow2_pos l : (2 ^ N.of_nat l <> 0)%N.
Proof. apply N.pow_nonzero. discriminate. Qed.
Lemma pow2_S l : (2 ^ N.of_nat (S l) = 2 * 2 ^ N.of_nat l)%N.
Proof. rewrite Nat2N.inj_succ, N.pow_succ_r'. reflexivity. Qed.
Lemma div_pow_S e l : (e / 2 ^ N.of_nat (S l) = e / 2 ^ N.of_nat l / 2)%N.
Proof. rewrite pow2_S, N.mul_comm, N.div_div by (try discriminate; apply pow2_pos). reflexivity. Qed.
Lemma testbit_odd e l : N.testbit e (N.of_nat l) = N.odd (e / 2 ^ N.of_nat l).
Proof. rewrite <- N.shiftr_div_pow2, <- N.bit0_odd, N.shiftr_spec'. reflexivity. Qed.

Lemma lxor1_sibling x : N.lxor x 1 = sibling x.
Proof. unfold sibling. destruct x as [|[q|q|]]; reflexivity. Qed.
Lemma sibling_spec x : sibling x = if N.odd x then (x - 1)%N else (x + 1)%N.
Proof. unfold sibling. rewrite <- N.negb_even. now destruct (N.even x). Qed.

(** low l bits of e all set *)
Definition ones (e : N) (l : nat) : Prop := (2 ^ N.of_nat l * (e / 2 ^ N.of_nat l + 1) = e + 1)%N.
Lemma ones_0 e : ones e 0.
Proof. unfold ones. change (2 ^ N.of_nat 0)%N with 1%N. rewrite N.div_1_r. lia. Qed.
Lemma ones_S e l : ones e l -> N.testbit e (N.of_nat l) = true -> ones e (S l).
Proof.
  unfold ones. rewrite testbit_odd, div_pow_S, pow2_S. intros Ho Hb.
  apply N.odd_spec in Hb. destruct Hb as [k Hk]. rewrite Hk in *.
  replace ((2 * k + 1) / 2)%N with k by (symmetry; rewrite N.mul_comm, N.div_add_l by discriminate; cbn; lia).
  nia.
Qed.
Lemma ones_succ_div e l j : ones e l -> j <= l -> ((e + 1) / 2 ^ N.of_nat j = e / 2 ^ N.of_nat j + 1)%N.
Proof.
  intros Ho Hj. unfold ones in Ho. rewrite <- Ho.
  assert (He : e = (2 ^ N.of_nat l * (e / 2 ^ N.of_nat l) + (2 ^ N.of_nat l - 1))%N).
  { pose proof (pow2_pos l). nia. }
  replace l with (j + (l - j)) in Ho, He |- * by lia.
  set (a := (e / 2 ^ N.of_nat (j + (l - j)))%N) in *.
  rewrite Nat2N.inj_add, N.pow_add_r in He |- *.
  set (x := (2 ^ N.of_nat j)%N) in *. set (y := (2 ^ N.of_nat (l - j))%N) in *.
  assert (Hx : (x <> 0)%N) by apply pow2_pos. assert (Hy : (y <> 0)%N) by apply pow2_pos.
  replace (x * y * (a + 1))%N with (y * (a + 1) * x)%N by lia. rewrite N.div_mul by exact Hx.
  rewrite He. replace (x * y * a + (x * y - 1))%N with ((x - 1) + (y * a + (y - 1)) * x)%N by nia.
  rewrite N.div_add by exact Hx. rewrite N.div_small by lia. lia.
Qed.
Lemma ones_stop e l : ones e l -> N.testbit e (N.of_nat l) = false ->
  forall j, l < j -> ((e + 1) / 2 ^ N.of_nat j = e / 2 ^ N.of_nat j)%N.
Proof.
  intros Ho Hb j Hj. pose proof (ones_succ_div e l l Ho (le_n _)) as Hd.
  rewrite testbit_odd in Hb. replace j with (S l + (j - S l)) by lia.
  assert (H1 : ((e + 1) / 2 ^ N.of_nat (S l) = e / 2 ^ N.of_nat (S l))%N).
  { rewrite !div_pow_S, Hd. rewrite <- N.negb_even in Hb. apply Bool.negb_false_iff in Hb.
    apply N.even_spec in Hb. destruct Hb as [k Hk]. rewrite Hk.
    rewrite N.mul_comm, N.div_add_l, N.div_mul by discriminate. cbn. lia. }
  rewrite Nat2N.inj_add, N.pow_add_r. rewrite <- !N.div_div by (apply pow2_pos). now rewrite H1.
Qed.

(** ** The canonical stack after [e] leaves: one node for each bit of [e], lowest on top *)
Section Bst.
Variable nd : nat -> N -> bytes.
Fixpoint bst (k l : nat) (e : N) : list (nat * bytes) :=
  match k with
  | O => []
  | S k' => if N.testbit e (N.of_nat l) then (l, nd l (e / 2 ^ N.of_nat l - 1)%N) :: bst k' (S l) e
            else bst k' (S l) e
  end.

Lemma bst_length k : forall l e, length (bst k l e) <= k.
Proof. induction k as [|k IH]; intros l e; cbn [bst]; [auto|]. specialize (IH (S l) e). destruct (N.testbit _ _); cbn [length]; lia. Qed.
Lemma bst_0 k : forall l, bst k l 0 = [].
Proof. induction k as [|k IH]; intros l; cbn [bst]; [auto|]. now rewrite N.bits_0, IH. Qed.
Lemma bst_hd k : forall l e x, nth_error (bst k l e) 0 = Some x -> l <= fst x.
Proof.
  induction k as [|k IH]; intros l e x; cbn [bst]; [discriminate|].
  destruct (N.testbit _ _); cbn [nth_error]; [intros [= <-]; cbn; lia|intros Hx; apply IH in Hx; lia].
Qed.
Lemma bst_ext k : forall l e e', (forall j, l <= j -> (e / 2 ^ N.of_nat j = e' / 2 ^ N.of_nat j)%N) -> bst k l e = bst k l e'.
Proof.
  induction k as [|k IH]; intros l e e' Hj; cbn [bst]; [auto|].
  rewrite !testbit_odd, (Hj l) by lia. rewrite (IH (S l) e e') by (intros; apply Hj; lia). reflexivity.
Qed.
Lemma bst_skip k : forall l e, (forall j, j < k -> N.testbit e (N.of_nat (l + j)) = false) -> forall k', bst (k + k') l e = bst k' (l + k) e.
Proof.
  induction k as [|k IH]; intros l e Hb k'; cbn [bst Nat.add]; [now rewrite Nat.add_0_r|].
  rewrite <- (Nat.add_0_r l) at 1. rewrite Hb by lia. rewrite IH; [f_equal; lia|].
  intros j Hj. replace (S l + j) with (l + S j) by lia. apply Hb. lia.
Qed.
(** the carry: the counter after one more leaf *)
Lemma bst_succ K e l : ones e l -> N.testbit e (N.of_nat l) = false -> l < K ->
  bst K 0 (e + 1) = (l, nd l (e / 2 ^ N.of_nat l)%N) :: bst (K - S l) (S l) e.
Proof.
  intros Ho Hb Hl. replace K with (l + S (K - S l)) at 1 by lia.
  rewrite bst_skip.
  - pose proof Hb as Hbt. cbn [bst Nat.add]. rewrite testbit_odd in Hb |- *. rewrite (ones_succ_div e l l Ho (le_n _)).
    rewrite (bst_ext _ _ (e + 1)%N e).
    + set (q := (e / 2 ^ N.of_nat l)%N) in *. rewrite N.add_1_r, N.odd_succ, <- N.negb_odd, Hb. cbn [negb].
      replace (N.succ q - 1)%N with q by lia. reflexivity.
    + intros j Hj. apply (ones_stop e l Ho Hbt). lia.
  - intros j Hj. cbn [Nat.add]. rewrite testbit_odd. rewrite <- Ho.
    replace l with (S j + (l - S j)) by lia. rewrite Nat2N.inj_add, N.pow_add_r, pow2_S.
    set (x := (2 ^ N.of_nat j)%N). 
    match goal with |- N.odd (?a / _) = _ => set (t := a) end.
    replace t with (2 * (2 ^ N.of_nat (l - S j) * (e / (2 * x * 2 ^ N.of_nat (l - S j)) + 1)) * x)%N by (unfold t; lia).
    rewrite N.div_mul by apply pow2_pos. rewrite <- N.negb_even, N.even_mul. reflexivity.
Qed.
End Bst.

Section Refine.
Context {E : Env}.
Variable p : xmss_params.
Variable Hf : bytes -> bytes.
Hypothesis Hp : params_ok p.
Hypothesis HH : hash_total p Hf.
Notation P := (sp_of p Hf).
Notation n := (p_n p).
Notation H := (tree_height p).

Section One.
Variables (sks seed : bytes) (L T : N).
Hypothesis Hsks : length sks = n.
Hypothesis Hseed : length seed = n.
Notation nd := (node P sks seed L T).

Lemma node_S l t : nd (S l) t = RAND_HASH P seed (HTREE L T (N.of_nat l) t) (nd l (2 * t)%N) (nd l (2 * t + 1)%N).
Proof. reflexivity. Qed.

Lemma hash_nodes l t a : ht_ctx a L T ->
  exists a', thash_h p (nd l (2 * t)%N ++ nd l (2 * t + 1)%N) seed
    (set_tree_index (set_tree_height a (N.of_nat l)) t) = Ok (nd (S l) t, a') /\ ht_ctx a' L T.
Proof.
  intros [Hw H4]. rewrite (thash_h_spec p Hf HH _ _ seed _ (HTREE L T (N.of_nat l) t));
    [|apply (node_length p Hf Hp HH)|apply (node_length p Hf Hp HH)|exact Hseed|
      intros; apply addr_bytes_htree; try reflexivity; assumption].
  eexists. split; [reflexivity|split; assumption].
Qed.

(** the authentication path nodes computed so far, when [e] leaves are done and, of the
    nodes that end with leaf [e], those up to level [l] *)
Definition auth_at (leaf_idx e : N) (l : option nat) (auth : list bytes) : Prop :=
  length auth = H /\ chunked n auth /\
  forall j, j < H -> let s := sibling (leaf_idx / 2 ^ N.of_nat j) in
    ((s + 1) * 2 ^ N.of_nat j <= e)%N \/ (exists l', l = Some l' /\ j <= l' /\ ((s + 1) * 2 ^ N.of_nat j = e + 1)%N) ->
    nth j auth [] = nd j s.

Lemma treehash_while_spec idx lf pre post : (idx < 2 ^ N.of_nat H)%N -> (lf < 2 ^ N.of_nat H)%N ->
  forall fuel l S cs hs auth a,
  l <= H -> ones idx l -> S = (l, nd l (idx / 2 ^ N.of_nat l)%N) :: bst nd (H + 1 - l) l idx ->
  length S <= fuel + 1 -> chunked n cs -> length cs = H + 1 -> length hs = H + 1 ->
  repr cs (map snd S) -> repr hs (map fst S) -> auth_at lf idx (Some l) auth -> ht_ctx a L T ->
  exists cs' hs' S' auth' a',
    treehash_while p fuel idx lf seed (concat cs) hs (length S) (pre ++ concat auth ++ post) (length pre) a =
      Ok (concat cs', hs', length S', pre ++ concat auth' ++ post, a') /\
    S' = bst nd (H + 1) 0 (idx + 1) /\ chunked n cs' /\ length cs' = H + 1 /\ length hs' = H + 1 /\
    repr cs' (map snd S') /\ repr hs' (map fst S') /\ auth_at lf (idx + 1) None auth' /\ ht_ctx a' L T.
Proof.
  intros Hidx Hlf. induction fuel as [|fuel IH]; intros l S cs hs auth a Hl Ho HS Hfuel Hcc Hcl Hhl Hrc Hrh Ha Hat.
  all: assert (Hstop : N.testbit idx (N.of_nat l) = false ->
    exists cs' hs' S' auth' a', Ok (concat cs, hs, length S, pre ++ concat auth ++ post, a) =
      Ok (concat cs', hs', length S', pre ++ concat auth' ++ post, a') /\
    S' = bst nd (H + 1) 0 (idx + 1) /\ chunked n cs' /\ length cs' = H + 1 /\ length hs' = H + 1 /\
    repr cs' (map snd S') /\ repr hs' (map fst S') /\ auth_at lf (idx + 1) None auth' /\ ht_ctx a' L T).
  1,3: intros Hb; exists cs, hs, S, auth, a; split; [reflexivity|];
    assert (HS' : S = bst nd (H + 1) 0 (idx + 1));
    [rewrite (bst_succ nd (H + 1) idx l Ho Hb) by lia; rewrite HS; f_equal;
     replace (H + 1 - l) with (Datatypes.S (H + 1 - Datatypes.S l)) by lia; cbn [bst]; rewrite Hb; reflexivity|];
    split; [exact HS'|]; split; [exact Hcc|]; split; [exact Hcl|]; split; [exact Hhl|];
    split; [exact Hrc|]; split; [exact Hrh|]; split; [|exact Hat];
    destruct Ha as (Hal & Hac & Haj); split; [exact Hal|]; split; [exact Hac|];
    intros j Hj; cbv zeta; intros [Hd|[l' [? _]]]; [|discriminate];
    apply Haj; [exact Hj|]; cbv zeta;
    destruct (N.eq_dec ((sibling (lf / 2 ^ N.of_nat j) + 1) * 2 ^ N.of_nat j) (idx + 1)) as [Heq|Hne];
      [right; exists l; split; [reflexivity|]; split; [|exact Heq]|left; lia];
    destruct (Nat.leb_spec j l) as [?|Hgt]; [assumption|exfalso];
    pose proof (ones_stop idx l Ho Hb j Hgt) as Hs; rewrite <- Heq, N.div_mul in Hs by apply pow2_pos;
    pose proof (N.mul_div_le idx (2 ^ N.of_nat j) (pow2_pos j)) as Hm; rewrite <- Hs in Hm; lia.
  - cbn [treehash_while]. rewrite HS in Hfuel. cbn [length] in Hfuel.
    assert (Hb : N.testbit idx (N.of_nat l) = false).
    { destruct (N.testbit idx (N.of_nat l)) eqn:Hb; [exfalso|reflexivity].
      replace (H + 1 - l) with (Datatypes.S (H - l)) in Hfuel by lia. cbn [bst] in Hfuel. rewrite Hb in Hfuel.
      cbn [length] in Hfuel. lia. }
    destruct (Nat.ltb_spec (length S) 2) as [_|Hge]; [apply Hstop, Hb|].
    rewrite HS in Hge. cbn [length] in Hge. lia.
  - cbn [treehash_while]. destruct (Nat.ltb_spec (length S) 2) as [Hlt|Hge].
    { apply Hstop. destruct (N.testbit idx (N.of_nat l)) eqn:Hb; [exfalso|reflexivity].
      rewrite HS in Hlt. replace (H + 1 - l) with (Datatypes.S (H - l)) in Hlt by lia. cbn [bst] in Hlt. rewrite Hb in Hlt.
      cbn [length] in Hlt. lia. }
    assert (Hbl : N.testbit idx (N.of_nat l) = true -> l < H).
    { intros Hb. destruct (Nat.eq_dec l H) as [->|]; [|lia].
      rewrite testbit_odd, N.div_small in Hb by exact Hidx. discriminate. }
    assert (Hrest : exists l2 x2 R, bst nd (H + 1 - l) l idx = (l2, x2) :: R /\ l <= l2 /\
        (N.testbit idx (N.of_nat l) = true -> l2 = l /\ x2 = nd l (idx / 2 ^ N.of_nat l - 1)%N /\ R = bst nd (H + 1 - Datatypes.S l) (Datatypes.S l) idx) /\
        (N.testbit idx (N.of_nat l) = false -> l < l2)).
    { rewrite HS in Hge. cbn [length] in Hge. destruct (bst nd (H + 1 - l) l idx) as [|[l2 x2] R] eqn:HB; [cbn in Hge; lia|].
      exists l2, x2, R. split; [reflexivity|].
      split; [change l2 with (fst (l2, x2)); apply (bst_hd nd (H + 1 - l) l idx); now rewrite HB|].
      replace (H + 1 - l) with (Datatypes.S (H + 1 - Datatypes.S l)) in HB by lia. cbn [bst] in HB.
      split; intros Hb; rewrite Hb in HB.
      - inversion HB; subst. auto.
      - assert (Hlt : Datatypes.S l <= fst (l2, x2)) by (apply (bst_hd nd (H + 1 - Datatypes.S l) (Datatypes.S l) idx); now rewrite HB).
        exact Hlt. }
    destruct Hrest as (l2 & x2 & R & HB & Hl2 & Hbt & Hbf). rewrite HB in HS. subst S. cbn [map fst snd length] in *.
    pose proof (repr_top _ _ _ 0 Hrh) as Ht1. pose proof (repr_top _ _ _ 0 (repr_pop _ _ _ Hrh)) as Ht2.
    pose proof (repr_top _ _ _ [] Hrc) as Ht3. pose proof (repr_top _ _ _ [] (repr_pop _ _ _ Hrc)) as Ht4.
    pose proof (repr_len _ _ Hrc) as Hlen. cbn [length] in *. rewrite !map_length in *.
    set (k := length R) in *.
    replace (Datatypes.S (Datatypes.S k) - 1) with (Datatypes.S k) by lia.
    replace (Datatypes.S (Datatypes.S k) - 2) with k by lia.
    rewrite (rdc_ok hs (Datatypes.S k) 0), bind_ok by lia. rewrite (rdc_ok hs k 0), bind_ok by lia.
    rewrite Ht1, Ht2. destruct (Nat.eqb_spec l l2) as [<-|Hne]; cbn [negb].
    2:{ apply Hstop. destruct (N.testbit idx (N.of_nat l)) eqn:Hb; [exfalso|reflexivity]. destruct (Hbt eq_refl). congruence. }
    assert (Hb : N.testbit idx (N.of_nat l) = true).
    { destruct (N.testbit idx (N.of_nat l)); [reflexivity|]. specialize (Hbf eq_refl). lia. }
    destruct (Hbt Hb) as (_ & Hx2 & HR). specialize (Hbl Hb). clear Hbt Hbf.
    rewrite (rd_chunk2 n) by (assumption || lia). rewrite bind_ok, Ht3, Ht4, Hx2.
    set (t := (idx / 2 ^ N.of_nat (Datatypes.S l))%N).
    assert (Hodd : (idx / 2 ^ N.of_nat l = 2 * t + 1)%N).
    { unfold t. rewrite div_pow_S. rewrite testbit_odd in Hb. apply N.odd_spec in Hb. destruct Hb as [q Hq]. rewrite Hq.
      rewrite (N.mul_comm 2 q), N.div_add_l by discriminate. change (1 / 2)%N with 0%N. lia. }
    rewrite Hodd. replace (2 * t + 1 - 1)%N with (2 * t)%N by lia.
    replace (N.shiftr idx (N.of_nat (l + 1))) with t by (unfold t; rewrite N.shiftr_div_pow2; f_equal; f_equal; lia).
    destruct (hash_nodes l t a Hat) as [a' [Hth Hat']]. rewrite Hth, bind_ok.
    rewrite (wr_chunk0 n) by (try apply (node_length p Hf Hp HH); assumption || lia). rewrite bind_ok.
    replace (Datatypes.S k - 1) with k by lia.
    rewrite (rdc_ok hs k 0), Ht2, bind_ok, wrc_ok, bind_ok by lia.
    (* the merged stack *)
    assert (Hrc' : repr (upd cs k (nd (Datatypes.S l) t)) (nd (Datatypes.S l) t :: map snd R)).
    { unfold k. rewrite <- (map_length snd). apply (repr_set _ _ x2). exact (repr_pop _ _ _ Hrc). }
    assert (Hrh' : repr (upd hs k (l + 1)) (l + 1 :: map fst R)).
    { unfold k. rewrite <- (map_length fst). apply (repr_set _ _ l). exact (repr_pop _ _ _ Hrh). }
    assert (Hcc' : chunked n (upd cs k (nd (Datatypes.S l) t))) by (apply chunked_upd; [exact Hcc|apply (node_length p Hf Hp HH)]).
    replace (l + 1) with (Datatypes.S l) in * by lia.
    rewrite lxor1_sibling, N.shiftr_div_pow2. fold t.
    assert (Hones : ones idx (Datatypes.S l)) by (now apply ones_S).
    assert (Hau : exists auth', (if (sibling (lf / 2 ^ N.of_nat (Datatypes.S l)) =? t)%N
        then (let* x := rd (concat (upd cs k (nd (Datatypes.S l) t))) (k * n) n in
           wr (pre ++ concat auth ++ post) (length pre + Datatypes.S l * n) x)
        else Ok (pre ++ concat auth ++ post)) = Ok (pre ++ concat auth' ++ post) /\ auth_at lf idx (Some (Datatypes.S l)) auth').
    { destruct Ha as (Hal & Hac & Haj). destruct (N.eqb_spec (sibling (lf / 2 ^ N.of_nat (Datatypes.S l))) t) as [Hs|Hs].
      - assert (HlH : Datatypes.S l < H).
        { destruct (Nat.eq_dec (Datatypes.S l) H) as [HeH|]; [exfalso|lia]. unfold t in Hs. rewrite HeH in Hs.
          rewrite !N.div_small in Hs by assumption. discriminate. }
        rewrite (rd_chunk0 n) by (rewrite ?upd_length; assumption || lia).
        rewrite bind_ok, upd_nth_same by lia. exists (upd auth (Datatypes.S l) (nd (Datatypes.S l) t)).
        split; [apply wr_chunk; [exact Hac|lia|apply (node_length p Hf Hp HH)]|].
        split; [rewrite upd_length; exact Hal|]. split; [apply chunked_upd; [exact Hac|apply (node_length p Hf Hp HH)]|].
        intros j Hj. cbv zeta. intros Hd. destruct (Nat.eq_dec (Datatypes.S l) j) as [<-|Hjne].
        + rewrite upd_nth_same by lia. now rewrite Hs.
        + rewrite upd_nth_other by exact Hjne. apply Haj; [exact Hj|]. cbv zeta.
          destruct Hd as [Hd|[l' [[= <-] [Hl' Hd]]]]; [left; exact Hd|right; exists l; split; [reflexivity|split; [lia|exact Hd]]].
      - exists auth. split; [reflexivity|]. split; [exact Hal|]. split; [exact Hac|].
        intros j Hj. cbv zeta. intros Hd. apply Haj; [exact Hj|]. cbv zeta.
        destruct Hd as [Hd|[l' [[= <-] [Hl' Hd]]]]; [left; exact Hd|right; exists l; split; [reflexivity|]].
        destruct (Nat.eq_dec (Datatypes.S l) j) as [<-|Hjne]; [exfalso|split; [lia|exact Hd]].
        unfold ones in Hones. fold t in Hones. apply Hs. pose proof (pow2_pos (Datatypes.S l)).
        rewrite <- Hones, N.mul_comm in Hd. apply N.mul_cancel_l in Hd; [lia|assumption]. }
    destruct Hau as (auth' & Hwr & Ha'). rewrite Hwr, bind_ok.
    destruct (IH (Datatypes.S l) ((Datatypes.S l, nd (Datatypes.S l) t) :: R) (upd cs k (nd (Datatypes.S l) t)) (upd hs k (Datatypes.S l)) auth' a')
      as (cs' & hs' & S' & auth'' & a'' & Heq & Hrest).
    + lia.
    + exact Hones.
    + f_equal. exact HR.
    + cbn [length]. fold k. lia.
    + exact Hcc'.
    + now rewrite upd_length.
    + now rewrite upd_length.
    + exact Hrc'.
    + exact Hrh'.
    + exact Ha'.
    + exact Hat'.
    + exists cs', hs', S', auth'', a''. split; [exact Heq|exact Hrest].
Qed.

Definition sub_ctx (a : addr) : Prop := a0 a = u32 L /\ a1 a = u32 (N.shiftr T 32) /\ a2 a = u32 T.

Lemma bst_top : bst nd (H + 1) 0 (2 ^ N.of_nat H) = [(H, root P sks seed L T)].
Proof.
  rewrite bst_skip.
  - cbn [bst Nat.add]. rewrite testbit_odd, N.div_same by apply pow2_pos. unfold root. rewrite (sp_th_of p Hf Hp). reflexivity.
  - intros j Hj. cbn [Nat.add]. rewrite N.pow2_bits_false by lia. reflexivity.
Qed.

Lemma auth_at_full lf auth : (lf < 2 ^ N.of_nat H)%N -> auth_at lf (2 ^ N.of_nat H) None auth ->
  auth = auth_path P sks seed L T lf.
Proof.
  intros Hlf (Hal & _ & Haj). unfold auth_path. rewrite (sp_th_of p Hf Hp).
  apply (list_ext []); [rewrite map_length, seq_length; exact Hal|]. intros j Hj.
  rewrite nth_map_seq by lia. cbn [Nat.add]. apply Haj; [lia|]. left.
  assert (HjH : j < H) by lia. clear Hj.
  assert (Hq : (lf / 2 ^ N.of_nat j < 2 ^ N.of_nat (H - j))%N).
  { apply N.div_lt_upper_bound; [apply pow2_pos|]. rewrite <- N.pow_add_r.
    replace (N.of_nat j + N.of_nat (H - j))%N with (N.of_nat H) by lia. exact Hlf. }
  assert (Hs : (sibling (lf / 2 ^ N.of_nat j) < 2 ^ N.of_nat (H - j))%N).
  { rewrite sibling_spec. destruct (N.odd (lf / 2 ^ N.of_nat j)) eqn:Ho; [lia|].
    rewrite <- N.negb_even in Ho. apply Bool.negb_false_iff, N.even_spec in Ho. destruct Ho as [q Hq2].
    rewrite Hq2 in *. replace (H - j) with (S (H - j - 1)) in * by lia. rewrite pow2_S in *. lia. }
  replace (2 ^ N.of_nat H)%N with (2 ^ N.of_nat (H - j) * 2 ^ N.of_nat j)%N.
  - apply N.mul_le_mono_r. lia.
  - rewrite <- N.pow_add_r. f_equal. lia.
Qed.

Lemma treehash_spec lf pre auth0 post sub : (lf < 2 ^ N.of_nat H)%N -> length auth0 = H * n -> sub_ctx sub ->
  treehash p (pre ++ auth0 ++ post) (length pre) sks seed lf sub =
    Ok (root P sks seed L T, pre ++ concat (auth_path P sks seed L T lf) ++ post).
Proof.
  intros Hlf Hau (Hs0 & Hs1 & Hs2). unfold treehash. cbv zeta.
  pose proof (po_th p Hp) as HH30.
  unfold shl1_int at 1. destruct (Nat.ltb_spec H 31) as [_|]; [|lia]. rewrite bind_ok.
  destruct (to_chunks n H auth0 Hau) as (au0 & Hau0l & Hau0c & <-).
  destruct (to_chunks n (H + 1) (uninit ((H + 1) * n)) (uninit_length _)) as (cs0 & Hcs0l & Hcs0c & <-).
  match goal with |- context [forN ?k 0 ?body ?s0] =>
    destruct (forN_inv (fun i '(stk, hs, off, ab, oa, la, na) => exists cs S auth,
       stk = concat cs /\ off = length S /\ ab = pre ++ concat auth ++ post /\
       S = bst nd (H + 1) 0 (N.of_nat i) /\ chunked n cs /\ length cs = H + 1 /\ length hs = H + 1 /\
       repr cs (map snd S) /\ repr hs (map fst S) /\ auth_at lf (N.of_nat i) None auth /\
       ht_ctx na L T /\ words oa L T 0 /\ words la L T 1)
      k 0 body s0) as [[[[[[[stk hs] off] ab] oa] la] na] [Heq Hinv]] end.
  - intros i [[[[[[stk hs] off] ab] oa] la] na] Hi
      (cs & S & auth & -> & -> & -> & HS & Hcc & Hcl & Hhl & Hrc & Hrh & Hat & Hna & Hoa & Hla).
    cbv beta iota zeta.
    assert (Hii : (N.of_nat i < 2 ^ N.of_nat H)%N) by lia.
    destruct (gen_leaf_wots_spec p Hf Hp HH sks seed L T (N.of_nat i) (set_ltree_addr la (N.of_nat i)) (set_ots_addr oa (N.of_nat i)))
      as (la' & oa' & h' & Hgl & Hla' & Hoa'); [exact Hsks|exact Hseed|exact Hla|reflexivity|split; [exact Hoa|reflexivity]|].
    rewrite Hgl, bind_ok.
    assert (Hlf' : leaf P sks seed L T (N.of_nat i) = nd 0 (N.of_nat i)) by reflexivity. rewrite Hlf'.
    assert (HSl : length S < H + 1).
    { rewrite HS. (* bit H is clear *)
      assert (Hb : bst nd (H + 1) 0 (N.of_nat i) = bst nd H 0 (N.of_nat i)).
      { clear -Hii. assert (Hg : forall k l, (l + k)%nat = H -> bst nd (k + 1) l (N.of_nat i) = bst nd k l (N.of_nat i)).
        { induction k as [|k IH]; intros l Hl.
          - cbn [bst Nat.add]. replace l with H by lia. rewrite testbit_odd, N.div_small by exact Hii. reflexivity.
          - cbn [bst Nat.add]. rewrite IH by lia. reflexivity. }
        apply Hg. lia. }
      pose proof (bst_length nd H 0 (N.of_nat i)). rewrite Hb. lia. }
    rewrite (wr_chunk0 n) by (try apply (node_length p Hf Hp HH); assumption || lia). rewrite bind_ok.
    replace (length S + 1 - 1) with (length S) by lia.
    rewrite wrc_ok, bind_ok by lia.
    set (x := nd 0 (N.of_nat i)).
    assert (Hx : length x = n) by apply (node_length p Hf Hp HH).
    assert (Hrc' : repr (upd cs (length S) x) (map snd ((0, x) :: S))).
    { cbn [map snd]. rewrite <- (map_length snd S). apply repr_push; [exact Hrc|rewrite map_length; lia]. }
    assert (Hrh' : repr (upd hs (length S) 0) (map fst ((0, x) :: S))).
    { cbn [map fst]. rewrite <- (map_length fst S). apply repr_push; [exact Hrh|rewrite map_length; lia]. }
    rewrite lxor1_sibling.
    assert (Haux : exists auth', (if (sibling lf =? N.of_nat i)%N
        then (let* y := rd (concat (upd cs (length S) x)) (length S * n) n in
           wr (pre ++ concat auth ++ post) (length pre) y)
        else Ok (pre ++ concat auth ++ post)) = Ok (pre ++ concat auth' ++ post) /\ auth_at lf (N.of_nat i) (Some 0) auth').
    { destruct Hat as (Hal & Hac & Haj). destruct (N.eqb_spec (sibling lf) (N.of_nat i)) as [Hs|Hs].
      - rewrite (rd_chunk0 n) by (rewrite ?upd_length; try apply chunked_upd; assumption || lia).
        rewrite bind_ok, upd_nth_same by lia. exists (upd auth 0 x).
        split; [rewrite <- (Nat.add_0_r (length pre)) at 1; change 0 with (0 * n) at 1; apply wr_chunk; [exact Hac|lia|exact Hx]|].
        split; [rewrite upd_length; exact Hal|]. split; [apply chunked_upd; [exact Hac|exact Hx]|].
        intros j Hj. cbv zeta. intros Hd. destruct (Nat.eq_dec 0 j) as [<-|Hjne].
        + rewrite upd_nth_same by lia. change (2 ^ N.of_nat 0)%N with 1%N. rewrite N.div_1_r, Hs. reflexivity.
        + rewrite upd_nth_other by exact Hjne. apply Haj; [exact Hj|]. cbv zeta.
          destruct Hd as [Hd|[l' [[= <-] [Hl' Hd]]]]; [left; exact Hd|lia].
      - exists auth. split; [reflexivity|]. split; [exact Hal|]. split; [exact Hac|].
        intros j Hj. cbv zeta. intros Hd. apply Haj; [exact Hj|]. cbv zeta.
        destruct Hd as [Hd|[l' [[= <-] [Hl' Hd]]]]; [left; exact Hd|exfalso].
        replace j with 0 in * by lia. change (2 ^ N.of_nat 0)%N with 1%N in *. rewrite N.div_1_r in Hd. lia. }
    destruct Haux as (auth' & Hwr & Hat'). rewrite Hwr, bind_ok.
    replace (length S + 1) with (length ((0, x) :: S)) by (cbn [length]; lia).
    destruct (treehash_while_spec (N.of_nat i) lf pre post Hii Hlf (length ((0, x) :: S)) 0 ((0, x) :: S)
                (upd cs (length S) x) (upd hs (length S) 0) auth' na)
      as (cs' & hs' & S' & auth'' & na' & Heq & HS' & Hcc' & Hcl' & Hhl' & Hrc'' & Hrh'' & Hat'' & Hna').
    + lia.
    + apply ones_0.
    + unfold x. change (2 ^ N.of_nat 0)%N with 1%N. rewrite N.div_1_r, HS, Nat.sub_0_r. reflexivity.
    + lia.
    + apply chunked_upd; assumption.
    + rewrite upd_length. exact Hcl.
    + rewrite upd_length. exact Hhl.
    + exact Hrc'.
    + exact Hrh'.
    + exact Hat'.
    + exact Hna.
    + rewrite Heq, bind_ok. eexists. split; [reflexivity|]. cbv beta iota.
      exists cs', S', auth''. replace (N.of_nat (Datatypes.S i)) with (N.of_nat i + 1)%N by lia.
      split; [reflexivity|]. split; [reflexivity|]. split; [reflexivity|]. split; [exact HS'|]. split; [exact Hcc'|].
      split; [exact Hcl'|]. split; [exact Hhl'|]. split; [exact Hrc''|]. split; [exact Hrh''|]. split; [exact Hat''|].
      split; [exact Hna'|]. destruct Hoa' as [Hoa' _]. destruct Hla' as [Hla' _]. split; [exact Hoa'|exact Hla'].
  - exists cs0, [], au0. split; [reflexivity|]. split; [reflexivity|]. split; [reflexivity|].
    split; [symmetry; apply bst_0|]. split; [exact Hcs0c|]. split; [exact Hcs0l|]. split; [apply uninit_nat_length|].
    split; [apply repr_nil|]. split; [apply repr_nil|].
    split; [split; [exact Hau0l|]; split; [exact Hau0c|]; intros j Hj; cbv zeta; intros [Hd|[l' [? _]]]; [|discriminate];
            pose proof (pow2_pos j); lia|].
    repeat split; assumption.
  - destruct Hinv as (cs & S & auth & -> & -> & -> & HS & Hcc & Hcl & Hhl & Hrc & Hrh & Hat & Hna & Hoa & Hla).
    rewrite Heq, bind_ok. cbn [Nat.add] in *. rewrite N2Nat.id in *.
    rewrite bst_top in HS. subst S. cbn [map fst snd length] in *.
    pose proof (repr_top _ _ _ [] Hrc) as Ht. cbn [length] in Ht.
    change 0 with (0 * n) at 1. rewrite (rd_chunk0 n cs 0) by (assumption || lia). rewrite bind_ok, Ht.
    rewrite (auth_at_full lf auth Hlf Hat). reflexivity.
Qed.
End One.
End Refine.
