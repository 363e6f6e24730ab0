(** BDS traversal, part 2: building a whole tree (treehash_init) and building it leaf by
    leaf (bds_state_update). *)
From Verif Require Import Base Lib SpecRfc ModelUtils ModelParams ModelHash ModelWots ModelCommons ModelCore
  ModelCoreFast ProofUtils ProofHash ProofWots ProofCommons ProofTree ProofBds1.

Ltac stc := cbn [st_stack st_stackoffset st_stacklevels st_auth st_keep st_treehash st_retain st_next_leaf
  set_stack set_stackoffset set_stacklevels set_auth set_keep set_treehash set_retain set_next_leaf
  th_h th_next_idx th_stackusage th_completed th_node].

Lemma map_upd {A B} (g : A -> B) l i x : map g (upd l i x) = upd (map g l) i (g x).
Proof. revert i. induction l as [|y l IH]; intros [|i]; cbn [map upd]; [reflexivity..|]. now rewrite IH. Qed.
Lemma nth_map_of_nat (l : list nat) i : i < length l -> nth i (map N.of_nat l) 0%N = N.of_nat (nth i l 0).
Proof. intros _. change 0%N with (N.of_nat 0). apply map_nth. Qed.

Lemma bst_view nd K l e : l < K ->
  match bst nd (K - l) l e with
  | [] => N.testbit e (N.of_nat l) = false
  | (l2, x2) :: R =>
      (N.testbit e (N.of_nat l) = true -> l2 = l /\ x2 = nd l (e / 2 ^ N.of_nat l - 1)%N /\ R = bst nd (K - S l) (S l) e) /\
      (N.testbit e (N.of_nat l) = false -> l < l2)
  end.
Proof.
  intros Hl. replace (K - l) with (S (K - S l)) by lia. cbn [bst]. destruct (N.testbit e (N.of_nat l)) eqn:Hb.
  - split; [auto|discriminate].
  - destruct (bst nd (K - S l) (S l) e) as [|[l2 x2] R] eqn:HB; [reflexivity|]. split; [discriminate|]. intros _.
    assert (Hlt : S l <= fst (l2, x2)) by (apply (bst_hd nd (K - S l) (S l) e); now rewrite HB). exact Hlt.
Qed.
Lemma rd_ck2 n b i m : length b = m * n -> S i < m -> rd b (i * n) (2 * n) = Ok (ck n b i ++ ck n b (S i)).
Proof.
  intros Hl Hi. assert (S i * n + n <= m * n) by nia. cbn [Nat.mul] in *. rewrite rd_ok by lia. f_equal. unfold ck.
  replace (n + (n + 0)) with (n + n) by lia. replace (S i * n) with (n + i * n) by reflexivity.
  rewrite <- skipn_skipn. generalize (skipn (i * n) b). clear. intros b.
  revert b. induction n as [|m IH]; intros b.
  - reflexivity.
  - destruct b as [|x b]; [reflexivity|]. cbn [firstn skipn Nat.add app].
    assert (Hf : forall a c (l : bytes), firstn (a + c) l = firstn a l ++ firstn c (skipn a l)).
    { induction a as [|a IHa]; intros c l; [reflexivity|]. destruct l; [now rewrite !firstn_nil|]. cbn. now rewrite IHa. }
    f_equal. apply Hf.
Qed.
Lemma rd_one n b i m : length b = m * n -> i < m -> rd b (i * n) n = Ok (ck n b i).
Proof. apply rd_ck. Qed.

(** what the top of the stack says about the carry *)
Lemma carry_node idx l : N.testbit idx (N.of_nat l) = true ->
  let t := (idx / 2 ^ N.of_nat (S l))%N in (idx / 2 ^ N.of_nat l = 2 * t + 1)%N.
Proof.
  intros Hb t. unfold t. rewrite div_pow_S. rewrite testbit_odd in Hb. apply N.odd_spec in Hb. destruct Hb as [q Hq].
  rewrite Hq. rewrite (N.mul_comm 2 q), N.div_add_l by discriminate. change (1 / 2)%N with 0%N. lia.
Qed.

Section Refine.
Context {E : Env}.
Variable p : xmss_params.
Variable Hf : bytes -> bytes.
Hypothesis Hp : params_ok p.
Hypothesis HH : hash_total p Hf.
Notation P := (sp_of p Hf).
Notation n := (p_n p).
Notation H := (tree_height p).
Notation k := (bds_k p).
Hypothesis Hk : k < H.

Section One.
Variables (sks seed : bytes) (L T : N).
Hypothesis Hsks : length sks = n.
Hypothesis Hseed : length seed = n.
Notation nd := (node P sks seed L T).

Lemma nd_len j i : length (nd j i) = n.
Proof. apply (node_length p Hf Hp HH). Qed.

Lemma bst_len e : (e < 2 ^ N.of_nat H)%N -> length (bst nd (H + 1) 0 e) < H + 1.
Proof.
  intros He. assert (Hb : bst nd (H + 1) 0 e = bst nd H 0 e).
  { assert (Hg : forall m l, (l + m)%nat = H -> bst nd (m + 1) l e = bst nd m l e).
    { induction m as [|m IH]; intros l Hl.
      - cbn [bst Nat.add]. replace l with H by lia. rewrite testbit_odd, N.div_small by exact He. reflexivity.
      - cbn [bst Nat.add]. rewrite IH by lia. reflexivity. }
    apply Hg. lia. }
  pose proof (bst_length nd H 0 e). rewrite Hb. lia.
Qed.

Lemma built_next e l s : ones e l -> N.testbit e (N.of_nat l) = false -> built p nd e l s -> built p nd (e + 1) 0 s.
Proof.
  intros Ho Hb [B1 B2 B3].
  assert (Hev : N.odd (e / 2 ^ N.of_nat l) = false) by (now rewrite <- testbit_odd).
  assert (Hd : forall j q, N.odd q = true -> done (e + 1) 0 j q -> done e l j q).
  { intros j q Hq Hd. apply (done_next e l Ho Hb) in Hd. apply done_S in Hd as [Hd|[-> Hd]]; [exact Hd|].
    apply (done_ones e l q Ho) in Hd. subst q. congruence. }
  constructor.
  - intros j Hj Hx. apply B1; auto.
  - intros j Hj Hx. apply B2; auto.
  - intros j r Hj1 Hj2 Hr Hx. apply B3; auto. apply Hd; [|exact Hx].
    replace (N.of_nat (2 * r + 3)) with (2 * N.of_nat (r + 1) + 1)%N by lia.
    rewrite N.odd_add, N.odd_mul. reflexivity.
Qed.

Lemma ti_while_spec idx : (idx < 2 ^ N.of_nat H)%N -> forall fuel l S stack levels s a,
  l <= H -> ones idx l -> S = (l, nd l (idx / 2 ^ N.of_nat l)%N) :: bst nd (H + 1 - l) l idx ->
  length S <= fuel + 1 -> length S <= H + 1 -> length stack = (H + 1) * n -> length levels = H + 1 ->
  srepr n stack (map N.of_nat levels) S -> shape p s -> built p nd idx l s -> ht_ctx a L T ->
  exists stack' levels' s' a' S',
    treehash_init_while p fuel idx idx seed stack levels (length S) s a = Ok (stack', levels', length S', s', a') /\
    S' = bst nd (H + 1) 0 (idx + 1) /\ length stack' = (H + 1) * n /\ length levels' = H + 1 /\
    srepr n stack' (map N.of_nat levels') S' /\ shape p s' /\ built p nd (idx + 1) 0 s' /\ frame s s' /\ ht_ctx a' L T.
Proof.
  intros Hidx. pose proof (po_th p Hp) as HH30.
  induction fuel as [|fuel IH]; intros l S stack levels s a Hl Ho HS Hfuel HSm Hsl Hll Hr Hs Hb Hat.
  all: assert (Hbl : N.testbit idx (N.of_nat l) = true -> l < H)
    by (intros Hb'; destruct (Nat.eq_dec l H) as [->|]; [|lia];
        rewrite testbit_odd, N.div_small in Hb' by exact Hidx; discriminate).
  all: assert (Hstop : N.testbit idx (N.of_nat l) = false ->
    exists stack' levels' s' a' S', Ok (stack, levels, length S, s, a) = Ok (stack', levels', length S', s', a') /\
    S' = bst nd (H + 1) 0 (idx + 1) /\ length stack' = (H + 1) * n /\ length levels' = H + 1 /\
    srepr n stack' (map N.of_nat levels') S' /\ shape p s' /\ built p nd (idx + 1) 0 s' /\ frame s s' /\ ht_ctx a' L T)
    by (intros Hbit; exists stack, levels, s, a, S; split; [reflexivity|]; split;
      [rewrite (bst_succ nd (H + 1) idx l Ho Hbit) by lia; rewrite HS; f_equal;
       replace (H + 1 - l) with (Datatypes.S (H + 1 - Datatypes.S l)) by lia; cbn [bst]; rewrite Hbit; reflexivity|];
      repeat (split; [assumption|]); split; [now apply (built_next idx l)|split; [apply frame_refl|assumption]]).
  all: pose proof (bst_view nd (H + 1) l idx ltac:(lia)) as Hv;
    destruct (bst nd (H + 1 - l) l idx) as [|[l2 x2] R] eqn:HB;
    [rewrite HS; cbn [treehash_init_while length Nat.leb]; rewrite HS in Hstop; exact (Hstop Hv)|].
  - rewrite HS in Hfuel. cbn [length] in Hfuel. lia.
  - destruct Hv as [Hbt Hbf]. subst S. cbn [length] in *. set (m := length R) in *.
    cbn [srepr fst snd] in Hr. destruct Hr as (R1 & R2 & R3 & R4 & R5). cbn [length] in R1, R2. fold m in R1, R2, R3, R4.
    cbn [treehash_init_while]. cbv zeta. cbn [Nat.leb].
    replace (Datatypes.S (Datatypes.S m) - 1) with (Datatypes.S m) by lia.
    replace (Datatypes.S (Datatypes.S m) - 2) with m by lia.
    rewrite nth_map_of_nat in R2, R4 by lia. apply Nat2N.inj in R2, R4.
    rewrite (rdc_ok levels (Datatypes.S m) 0), bind_ok by lia. rewrite (rdc_ok levels m 0), bind_ok by lia.
    rewrite R2, R4. destruct (Nat.eqb_spec l l2) as [<-|Hne]; cbn [negb].
    2:{ apply Hstop. destruct (N.testbit idx (N.of_nat l)) eqn:Hbit; [exfalso|reflexivity]. destruct (Hbt eq_refl). congruence. }
    assert (Hbit : N.testbit idx (N.of_nat l) = true).
    { destruct (N.testbit idx (N.of_nat l)); [reflexivity|]. specialize (Hbf eq_refl). lia. }
    destruct (Hbt Hbit) as (_ & Hx2 & HR). specialize (Hbl Hbit). clear Hbt Hbf.
    rewrite (rd_ck n stack (Datatypes.S m) (H + 1)) by (assumption || lia). rewrite bind_ok, R1.
    destruct (place_node_spec p Hk ltac:(lia) nd nd_len idx l s Hs Hb Hbl Hidx Ho Hbit) as (s' & Hpl & Hs' & Hb' & Hfr).
    rewrite Hpl, bind_ok.
    rewrite (rd_ck2 n stack m (H + 1)) by (assumption || lia). rewrite bind_ok, R1, R3, Hx2.
    set (t := (idx / 2 ^ N.of_nat (Datatypes.S l))%N).
    pose proof (carry_node idx l Hbit) as Hodd. cbv zeta in Hodd. fold t in Hodd. rewrite Hodd.
    replace (2 * t + 1 - 1)%N with (2 * t)%N by lia.
    replace (N.shiftr idx (N.of_nat (l + 1))) with t by (unfold t; rewrite N.shiftr_div_pow2; f_equal; f_equal; lia).
    destruct (hash_nodes p Hf Hp HH sks seed L T Hseed l t a Hat) as [a' [Hth Hat']]. rewrite Hth, bind_ok.
    rewrite (wr_ck n stack m (H + 1)) by (try apply nd_len; assumption || lia). rewrite bind_ok.
    rewrite wrc_ok, bind_ok by lia.
    replace (l + 1) with (Datatypes.S l) in * by lia.
    destruct (IH (Datatypes.S l) ((Datatypes.S l, nd (Datatypes.S l) t) :: R) (setck n stack m (nd (Datatypes.S l) t))
                (upd levels m (Datatypes.S l)) s' a') as (stack' & levels' & s'' & a'' & S' & Heq & HS' & Hsl' & Hll' & Hr' & Hs'' & Hb'' & Hfr' & Hat'').
    + lia.
    + now apply ones_S.
    + f_equal. exact HR.
    + cbn [length]. fold m. lia.
    + cbn [length]. fold m. lia.
    + apply (setck_length n); (assumption || apply nd_len || lia).
    + now rewrite upd_length.
    + rewrite map_upd. unfold m. apply (srepr_push n stack (map N.of_nat levels) R (H + 1));
        (assumption || apply nd_len || (rewrite map_length; lia) || (fold m; lia) || idtac).
    + exact Hs'.
    + exact Hb'.
    + exact Hat'.
    + exists stack', levels', s'', a'', S'. split; [exact Heq|]. repeat (split; [assumption|]).
      split; [exact (frame_trans _ _ _ Hfr Hfr')|assumption].
Qed.

(** all instances completed, at their own level *)
Definition th_idle (s : bds_state) : Prop := forall j t, nth_error (st_treehash s) j = Some t ->
  th_h t = j /\ th_stackusage t = 0 /\ th_completed t = 1%N /\ (th_next_idx t < 2 ^ 32)%N.
Lemma scal_idle s s' : map th_scal (st_treehash s') = map th_scal (st_treehash s) -> th_idle s -> th_idle s'.
Proof.
  intros Hm Hi j t Ht. pose proof (map_nth_error th_scal _ _ Ht) as H1. rewrite Hm in H1.
  rewrite nth_error_map in H1. destruct (nth_error (st_treehash s) j) as [u|] eqn:Hu; [|discriminate].
  cbn in H1. unfold th_scal in H1. injection H1 as E1 E2 E3 E4. destruct (Hi j u Hu) as (I1 & I2 & I3 & I4). split; [congruence|]. split; [congruence|]. split; congruence.
Qed.

Lemma init_scal_spec s : shape p s -> (forall j t, nth_error (st_treehash s) j = Some t -> (th_next_idx t < 2 ^ 32)%N) ->
  exists ths, forN (thcount p) 0 (fun i l => let* t := rdc l i in wrc l i (mkTh i (th_next_idx t) 0 1 (th_node t))) (st_treehash s) = Ok ths /\
    shape p (set_treehash s ths) /\ th_idle (set_treehash s ths).
Proof.
  intros Hs Hnx.
  match goal with |- context [forN ?k0 0 ?body ?s0] =>
    destruct (forN_inv (fun i l => length l = thcount p /\
       (forall j t, nth_error l j = Some t -> length (th_node t) = n /\ (th_next_idx t < 2 ^ 32)%N /\
          (j < i -> th_h t = j /\ th_stackusage t = 0 /\ th_completed t = 1%N))) k0 0 body s0) as [l [Heq [Hl Hj]]] end.
  - intros j l Hj [Hl Ha]. destruct (nth_error l j) as [t|] eqn:Ht; [|apply nth_error_None in Ht; lia].
    rewrite (rdc_some l j t Ht), bind_ok, wrc_ok by lia. eexists. split; [reflexivity|]. split; [now rewrite upd_length|].
    intros i u Hu. destruct (Nat.eq_dec j i) as [<-|Hn].
    + rewrite nth_error_upd_same in Hu by lia. injection Hu as <-. cbn [th_h th_next_idx th_stackusage th_completed th_node]. destruct (Ha j t Ht) as (A1 & A2 & _). auto.
    + rewrite nth_error_upd_other in Hu by exact Hn. destruct (Ha i u Hu) as (A1 & A2 & A3). split; [exact A1|]. split; [exact A2|]. intros Hi. apply A3. lia.
  - split; [apply (sh_th p s Hs)|]. intros j t Ht. split; [exact (sh_nodes p s Hs j t Ht)|]. split; [exact (Hnx j t Ht)|lia].
  - exists l. split; [exact Heq|]. split.
    + destruct Hs. constructor; cbn; try assumption. intros j t Ht. exact (proj1 (Hj j t Ht)).
    + intros j t Ht. cbn in Ht. destruct (Hj j t Ht) as (A1 & A2 & A3). destruct A3 as (A3 & A4 & A5); [cbn; rewrite <- Hl; apply nth_error_Some; congruence|]. auto.
Qed.

(** the odd copy at leaf number 3 *)
Lemma copy3_spec stack s off : off + 1 <= H -> length stack = (H + 1) * n -> shape p s -> built p nd 3 0 s ->
  exists s', (let* x := rd stack ((off + 1) * n) n in
       let* t := rdc (st_treehash s) 0 in
       let* nd := wr (th_node t) 0 x in
       let* ths := wrc (st_treehash s) 0 (mkTh (th_h t) (th_next_idx t) (th_stackusage t) (th_completed t) nd) in
       Ok (set_treehash s ths)) = Ok s' /\ shape p s' /\ built p nd 3 0 s' /\ frame s s'.
Proof.
  intros Ho Hl Hs Hb. rewrite (rd_ck n stack (off + 1) (H + 1)) by (assumption || lia). rewrite bind_ok.
  assert (H0 : 0 < length (st_treehash s)) by (rewrite (sh_th p s Hs); unfold thcount; lia).
  destruct (nth_error (st_treehash s) 0) as [t|] eqn:Ht; [|apply nth_error_None in Ht; lia].
  rewrite (rdc_some _ _ t Ht), bind_ok.
  destruct (set_th_node p s 0 t (ck n stack (off + 1)) Hs Ht) as (E1 & E2 & E3 & E4);
    [apply (ck_length n stack (off + 1) (H + 1)); (assumption || lia)|].
  eexists. split; [exact E1|]. split; [exact E2|]. split; [|exact E3].
  destruct Hb as [B1 B2 B3]. constructor; [exact B1| |exact B3].
  intros j Hj Hd. rewrite E4. destruct (Nat.eqb_spec j 0) as [->|Hn]; [|auto].
  exfalso. destruct Hd as [Hd|[Hd _]]; [change (2 ^ N.of_nat 0)%N with 1%N in Hd|]; lia.
Qed.

Lemma treehash_init_spec s sub : H <> 2 -> shape p s -> (forall j t, nth_error (st_treehash s) j = Some t -> (th_next_idx t < 2 ^ 32)%N) -> sub_ctx L T sub ->
  exists s', treehash_init p H s sks seed sub = Ok (root P sks seed L T, s') /\ shape p s' /\
    built p nd (2 ^ N.of_nat H) 0 s' /\ th_idle s' /\
    st_stackoffset s' = st_stackoffset s /\ st_next_leaf s' = st_next_leaf s /\
    st_stack s' = st_stack s /\ st_stacklevels s' = st_stacklevels s /\ st_keep s' = st_keep s.
Proof.
  intros H2 Hs Hnx (Hs0 & Hs1 & Hs2). unfold treehash_init. cbv zeta. pose proof (po_th p Hp) as HH30.
  rewrite shl1_int_ok, bind_ok by lia. rewrite (th_count_ok p Hk), bind_ok.
  destruct (init_scal_spec s Hs Hnx) as (ths & Eq0 & Hs' & Hidle). rewrite Eq0, bind_ok. clear Eq0.
  set (s0 := set_treehash s ths) in *.
  match goal with |- context [forN ?k 0 ?body ?st0] =>
    destruct (forN_inv (fun i '(stk, levels, off, s, la, oa, na) => exists S,
       off = length S /\ S = bst nd (H + 1) 0 (N.of_nat i) /\ length stk = (H + 1) * n /\ length levels = H + 1 /\
       srepr n stk (map N.of_nat levels) S /\ shape p s /\ built p nd (N.of_nat i) 0 s /\ frame s0 s /\
       ht_ctx na L T /\ words oa L T 0 /\ words la L T 1)
      k 0 body st0) as [[[[[[[stk levels] off] s'] la] oa] na] [Heq Hinv]] end.
  - intros i [[[[[[stk levels] off] s1] la] oa] na] Hi (S & -> & HS & Hsl & Hll & Hr & Hs1' & Hb & Hfr & Hna & Hoa & Hla).
    cbv beta iota zeta.
    assert (Hii : (N.of_nat i < 2 ^ N.of_nat H)%N) by lia.
    destruct (gen_leaf_wots_spec p Hf Hp HH sks seed L T (N.of_nat i) (set_ltree_addr la (N.of_nat i)) (set_ots_addr oa (N.of_nat i)))
      as (la' & oa' & h' & Hgl & Hla' & Hoa'); [exact Hsks|exact Hseed|exact Hla|reflexivity|split; [exact Hoa|reflexivity]|].
    rewrite Hgl, bind_ok.
    assert (Hlf' : leaf P sks seed L T (N.of_nat i) = nd 0 (N.of_nat i)) by reflexivity. rewrite Hlf'.
    pose proof (bst_len (N.of_nat i) Hii) as HSl. rewrite <- HS in HSl.
    rewrite (wr_ck n stk (length S) (H + 1)) by (try apply nd_len; assumption || lia). rewrite bind_ok.
    rewrite wrc_ok, bind_ok by lia.
    set (stk1 := setck n stk (length S) (nd 0 (N.of_nat i))).
    assert (Hsl1 : length stk1 = (H + 1) * n) by (apply (setck_length n); (assumption || apply nd_len || lia)).
    assert (Hq : exists s2, (if (0 <? thcount p) && (i =? 3) then
             let* x := rd stk1 ((length S + 1) * n) n in
             let* t := rdc (st_treehash s1) 0 in
             let* nd := wr (th_node t) 0 x in
             let* ths := wrc (st_treehash s1) 0 (mkTh (th_h t) (th_next_idx t) (th_stackusage t) (th_completed t) nd) in
             Ok (set_treehash s1 ths) else Ok s1) = Ok s2 /\ shape p s2 /\ built p nd (N.of_nat i) 0 s2 /\ frame s1 s2).
    { replace (0 <? thcount p) with true by (symmetry; apply Nat.ltb_lt; unfold thcount; lia). cbn [andb].
      destruct (Nat.eqb_spec i 3) as [->|Hn3].
      - change (N.of_nat 3) with 3%N in *. apply copy3_spec; try assumption.
        assert (H1 : H <> 1) by (intros E1; rewrite E1 in Hii; cbn in Hii; lia).
        assert (HS2 : length S = 2).
        { rewrite HS. replace (H + 1) with (2 + (H - 1)) by lia. cbn [Nat.add bst]. change (N.testbit 3 (N.of_nat 0)) with true.
          change (N.testbit 3 (N.of_nat 1)) with true. cbn [length].
          replace (bst nd (H - 1) 2 3) with (@nil (nat * bytes)); [reflexivity|].
          rewrite (bst_ext nd (H - 1) 2 3 0); [symmetry; apply bst_0|]. intros j Hj.
          rewrite !N.div_small; [reflexivity| |].
          - pose proof (pow2_pos j). lia.
          - assert (4 <= 2 ^ N.of_nat j)%N; [|lia]. change 4%N with (2 ^ 2)%N. apply N.pow_le_mono_r; lia. }
        lia.
      - exists s1. split; [reflexivity|]. split; [assumption|]. split; [assumption|apply frame_refl]. }
    destruct Hq as (s2 & Heq2 & Hs2' & Hb2 & Hfr2). rewrite Heq2, bind_ok.
    replace (length S + 1) with (length ((0, nd 0 (N.of_nat i)) :: S)) by (cbn [length]; lia).
    destruct (ti_while_spec (N.of_nat i) Hii (length ((0, nd 0 (N.of_nat i)) :: S)) 0 ((0, nd 0 (N.of_nat i)) :: S)
                stk1 (upd levels (length S) 0) s2 na)
      as (stk' & levels' & s3 & na' & S' & Heq & HS' & Hsl' & Hll' & Hr' & Hs3 & Hb3 & Hfr3 & Hna').
    + lia.
    + apply ones_0.
    + change (2 ^ N.of_nat 0)%N with 1%N. rewrite N.div_1_r, HS, Nat.sub_0_r. reflexivity.
    + lia.
    + cbn [length]. lia.
    + exact Hsl1.
    + now rewrite upd_length.
    + rewrite map_upd. apply (srepr_push n stk (map N.of_nat levels) S (H + 1)); (assumption || apply nd_len || (rewrite map_length; lia) || lia).
    + exact Hs2'.
    + exact Hb2.
    + exact Hna.
    + rewrite Heq, bind_ok. eexists. split; [reflexivity|]. cbv beta iota. exists S'.
      replace (N.of_nat (Datatypes.S i)) with (N.of_nat i + 1)%N by lia.
      split; [reflexivity|]. split; [exact HS'|]. split; [exact Hsl'|]. split; [exact Hll'|]. split; [exact Hr'|].
      split; [exact Hs3|]. split; [exact Hb3|].
      split; [exact (frame_trans _ _ _ Hfr (frame_trans _ _ _ Hfr2 Hfr3))|].
      split; [exact Hna'|]. destruct Hoa' as [Hoa' _]. destruct Hla' as [Hla' _]. split; [exact Hoa'|exact Hla'].
  - exists []. split; [reflexivity|]. split; [symmetry; apply bst_0|].
    split; [apply uninit_length|]. split; [apply uninit_nat_length|]. split; [exact I|]. split; [exact Hs'|].
    split.
    { constructor; intros; exfalso; match goal with Hd : done _ _ ?j _ |- _ => destruct Hd as [Hd|[Hd _]]; [|lia]; pose proof (pow2_pos j) end; lia. }
    split; [apply frame_refl|]. repeat split; assumption.
  - destruct Hinv as (S & -> & HS & Hsl & Hll & Hr & Hs1' & Hb & Hfr & _).
    rewrite Heq, bind_ok. cbn [Nat.add] in *. rewrite N2Nat.id in *.
    rewrite (bst_top p Hf Hp) in HS. subst S. cbn [srepr length fst snd] in Hr. destruct Hr as [Ht _].
    change 0 with (0 * n) at 1. rewrite (rd_ck n stk 0 (H + 1)) by (assumption || lia). rewrite bind_ok, Ht.
    exists s'. split; [reflexivity|]. split; [assumption|]. split; [assumption|].
    destruct Hfr as [F1 F2 F3 F4 F5 F6]. split; [apply (scal_idle s0); assumption|]. auto. Unshelve. all: assumption.
Qed.

(** what a step of the leaf-by-leaf construction preserves *)
Definition same_th (s s' : bds_state) : Prop :=
  st_keep s' = st_keep s /\ st_next_leaf s' = st_next_leaf s /\
  map th_scal (st_treehash s') = map th_scal (st_treehash s).
Lemma built_stack e l s s' : st_auth s' = st_auth s -> st_treehash s' = st_treehash s -> st_retain s' = st_retain s ->
  built p nd e l s -> built p nd e l s'.
Proof.
  intros E1 E2 E3 [B1 B2 B3]. constructor; intros.
  - rewrite E1. auto.
  - unfold th_nd. rewrite E2. apply B2; assumption.
  - rewrite E3. auto.
Qed.

Lemma su_while_spec idx : (idx < 2 ^ N.of_nat H)%N -> forall fuel l S s a,
  l <= H -> ones idx l -> S = (l, nd l (idx / 2 ^ N.of_nat l)%N) :: bst nd (H + 1 - l) l idx ->
  length S <= fuel + 1 -> length S <= H + 1 -> st_stackoffset s = length S ->
  srepr n (st_stack s) (st_stacklevels s) S -> shape p s -> built p nd idx l s -> ht_ctx a L T ->
  exists s' a' S',
    bds_state_update_while p fuel idx seed s a = Ok (s', a') /\
    S' = bst nd (H + 1) 0 (idx + 1) /\ st_stackoffset s' = length S' /\
    srepr n (st_stack s') (st_stacklevels s') S' /\ shape p s' /\ built p nd (idx + 1) 0 s' /\ same_th s s'.
Proof.
  intros Hidx. pose proof (po_th p Hp) as HH30.
  induction fuel as [|fuel IH]; intros l S s a Hl Ho HS Hfuel HSm Hoff Hr Hs Hb Hat.
  all: assert (Hbl : N.testbit idx (N.of_nat l) = true -> l < H)
    by (intros Hb'; destruct (Nat.eq_dec l H) as [->|]; [|lia];
        rewrite testbit_odd, N.div_small in Hb' by exact Hidx; discriminate).
  all: assert (Hstop : N.testbit idx (N.of_nat l) = false ->
    exists s' a' S', Ok (s, a) = Ok (s', a') /\
    S' = bst nd (H + 1) 0 (idx + 1) /\ st_stackoffset s' = length S' /\
    srepr n (st_stack s') (st_stacklevels s') S' /\ shape p s' /\ built p nd (idx + 1) 0 s' /\ same_th s s')
    by (intros Hbit; exists s, a, S; split; [reflexivity|]; split;
      [rewrite (bst_succ nd (H + 1) idx l Ho Hbit) by lia; rewrite HS; f_equal;
       replace (H + 1 - l) with (Datatypes.S (H + 1 - Datatypes.S l)) by lia; cbn [bst]; rewrite Hbit; reflexivity|];
      repeat (split; [assumption|]); split; [now apply (built_next idx l)|repeat split]).
  all: pose proof (bst_view nd (H + 1) l idx ltac:(lia)) as Hv;
    destruct (bst nd (H + 1 - l) l idx) as [|[l2 x2] R] eqn:HB;
    [assert (Hlen1 : length S = 1) by (rewrite HS; reflexivity); cbn [bds_state_update_while]; cbv zeta; rewrite Hoff, Hlen1; cbn [Nat.leb]; exact (Hstop Hv)|].
  - rewrite HS in Hfuel. cbn [length] in Hfuel. lia.
  - destruct Hv as [Hbt Hbf]. subst S. cbn [length] in *. set (m := length R) in *.
    cbn [srepr fst snd] in Hr. destruct Hr as (R1 & R2 & R3 & R4 & R5). cbn [length] in R1, R2. fold m in R1, R2, R3, R4.
    cbn [bds_state_update_while]. cbv zeta. rewrite Hoff. change (Datatypes.S (Datatypes.S m) <=? 1) with false. cbv iota.
    replace (Datatypes.S (Datatypes.S m) - 1) with (Datatypes.S m) by lia.
    replace (Datatypes.S (Datatypes.S m) - 2) with m by lia.
    pose proof (sh_levels p s Hs) as Hll. pose proof (sh_stack p s Hs) as Hsl.
    rewrite (rdc_ok (st_stacklevels s) (Datatypes.S m) 0%N), bind_ok by lia.
    rewrite (rdc_ok (st_stacklevels s) m 0%N), bind_ok by lia.
    rewrite R2, R4. destruct (N.eqb_spec (N.of_nat l) (N.of_nat l2)) as [Hll2|Hne]; cbn [negb].
    2:{ apply Hstop. destruct (N.testbit idx (N.of_nat l)) eqn:Hbit; [exfalso|reflexivity]. destruct (Hbt eq_refl). congruence. }
    apply Nat2N.inj in Hll2. subst l2.
    assert (Hbit : N.testbit idx (N.of_nat l) = true).
    { destruct (N.testbit idx (N.of_nat l)); [reflexivity|]. specialize (Hbf eq_refl). lia. }
    destruct (Hbt Hbit) as (_ & Hx2 & HR). specialize (Hbl Hbit). clear Hbt Hbf.
    rewrite (rd_ck n (st_stack s) (Datatypes.S m) (H + 1)) by (assumption || lia). rewrite bind_ok, R1.
    rewrite Nat2N.id.
    destruct (place_node_spec p Hk ltac:(lia) nd nd_len idx l s Hs Hb Hbl Hidx Ho Hbit) as (s' & Hpl & Hs' & Hb' & Hfr).
    rewrite Hpl, bind_ok. replace (31 <=? l) with false by (symmetry; apply Nat.leb_gt; lia).
    destruct Hfr as [F1 F2 F3 F4 F5 F6]. rewrite F1, F3.
    rewrite (rd_ck2 n (st_stack s) m (H + 1)) by (assumption || lia). rewrite bind_ok, R1, R3, Hx2.
    set (t := (idx / 2 ^ N.of_nat (Datatypes.S l))%N).
    pose proof (carry_node idx l Hbit) as Hodd. cbv zeta in Hodd. fold t in Hodd. rewrite Hodd.
    replace (2 * t + 1 - 1)%N with (2 * t)%N by lia.
    replace (N.shiftr idx (N.of_nat l + 1)) with t by (unfold t; rewrite N.shiftr_div_pow2; f_equal; f_equal; lia).
    destruct (hash_nodes p Hf Hp HH sks seed L T Hseed l t a Hat) as [a' [Hth Hat']]. rewrite Hth, bind_ok.
    rewrite (wr_ck n (st_stack s) m (H + 1)) by (try apply nd_len; assumption || lia). rewrite bind_ok.
    rewrite wrc_ok, bind_ok by lia.
    replace (u8 (N.of_nat l + 1)) with (N.of_nat (Datatypes.S l)).
    2:{ unfold u8. rewrite N.mod_small by lia. lia. }
    match goal with |- context [bds_state_update_while p fuel idx seed ?st a'] => set (s2 := st) end.
    destruct (IH (Datatypes.S l) ((Datatypes.S l, nd (Datatypes.S l) t) :: R) s2 a')
      as (s3 & a3 & S' & Heq & HS' & Hoff' & Hr' & Hs3 & Hb3 & Hsame).
    + lia.
    + now apply ones_S.
    + f_equal. exact HR.
    + cbn [length]. fold m. lia.
    + cbn [length]. fold m. lia.
    + reflexivity.
    + change (st_stack s2) with (setck n (st_stack s) m (nd (Datatypes.S l) t)).
      change (st_stacklevels s2) with (upd (st_stacklevels s) m (N.of_nat (Datatypes.S l))).
      unfold m. apply (srepr_push n _ _ R (H + 1)); (assumption || apply nd_len || (fold m; lia)).
    + unfold s2. destruct Hs'. constructor; stc; try assumption.
      * apply (setck_length n); (assumption || apply nd_len || lia).
      * now rewrite upd_length.
    + apply (built_stack _ _ s'); (reflexivity || exact Hb').
    + exact Hat'.
    + exists s3, a3, S'. split; [exact Heq|]. repeat (split; [assumption|]).
      destruct Hsame as (Q1 & Q2 & Q3). unfold s2 in Q1, Q2, Q3. revert Q1 Q2 Q3. stc. intros Q1 Q2 Q3. unfold same_th. split; [congruence|]. split; congruence.
Qed.

(** a state in which e leaves of the next tree have been processed *)
Record partial_tree (e : N) (s : bds_state) : Prop := mkPartial {
  pt_shape : shape p s;
  pt_next : st_next_leaf s = e;
  pt_off : st_stackoffset s = length (bst nd (H + 1) 0 e);
  pt_stack : srepr n (st_stack s) (st_stacklevels s) (bst nd (H + 1) 0 e);
  pt_built : built p nd e 0 s }.

Lemma partial_0 s : shape p s -> partial_tree 0 (set_next_leaf (set_stackoffset s 0) 0).
Proof.
  intros Hs. constructor.
  - destruct Hs. constructor; assumption.
  - reflexivity.
  - rewrite bst_0. reflexivity.
  - rewrite bst_0. exact I.
  - constructor; intros; exfalso; match goal with Hd : done _ _ ?j _ |- _ => destruct Hd as [Hd|[Hd _]]; [|lia]; pose proof (pow2_pos j) end; lia.
Qed.

Lemma update_full s sub : st_next_leaf s = (2 ^ N.of_nat H)%N -> bds_state_update p s sks seed sub = Ok s.
Proof.
  intros Hn. unfold bds_state_update. cbv zeta. pose proof (po_th p Hp) as HH30.
  rewrite shl1_int_ok, bind_ok by lia. rewrite (th_count_ok p Hk), bind_ok. rewrite Hn, N.eqb_refl. reflexivity.
Qed.

Lemma bst_three K : 2 <= K -> length (bst nd K 0 3) = 2.
Proof.
  intros HK. replace K with (2 + (K - 2)) by lia. cbn [Nat.add bst]. change (N.testbit 3 (N.of_nat 0)) with true.
  change (N.testbit 3 (N.of_nat 1)) with true. cbn [length].
  replace (bst nd (K - 2) 2 3) with (@nil (nat * bytes)); [reflexivity|].
  rewrite (bst_ext nd (K - 2) 2 3 0); [symmetry; apply bst_0|]. intros j Hj.
  rewrite !N.div_small; [reflexivity| |].
  - pose proof (pow2_pos j). lia.
  - assert (4 <= 2 ^ N.of_nat j)%N; [|lia]. change 4%N with (2 ^ 2)%N. apply N.pow_le_mono_r; lia.
Qed.

Lemma bds_state_update_spec e s sub : H <> 2 -> (e < 2 ^ N.of_nat H)%N -> partial_tree e s -> sub_ctx L T sub ->
  exists s', bds_state_update p s sks seed sub = Ok s' /\ partial_tree (e + 1) s' /\
    st_keep s' = st_keep s /\ map th_scal (st_treehash s') = map th_scal (st_treehash s).
Proof.
  intros H2 He [Hs Hn Hoff Hr Hb] (Hs0 & Hs1 & Hs2). unfold bds_state_update. cbv zeta.
  pose proof (po_th p Hp) as HH30.
  rewrite shl1_int_ok, bind_ok by lia. rewrite (th_count_ok p Hk), bind_ok. rewrite Hn.
  replace (e =? 2 ^ N.of_nat H)%N with false by (symmetry; apply N.eqb_neq; lia).
  destruct (gen_leaf_wots_spec p Hf Hp HH sks seed L T e
     (set_ltree_addr (set_type (copy_subtree_addr addr_zero sub) 1) e)
     (set_ots_addr (set_type (copy_subtree_addr addr_zero sub) 0) e))
    as (la' & oa' & h' & Hgl & _ & _); [exact Hsks|exact Hseed|repeat split; assumption|reflexivity|split; [repeat split; assumption|reflexivity]|].
  rewrite Hgl, bind_ok. clear Hgl la' oa' h'.
  assert (Hlf' : leaf P sks seed L T e = nd 0 e) by reflexivity. rewrite Hlf'.
  pose proof (bst_len e He) as HSl. set (S := bst nd (H + 1) 0 e) in *. rewrite Hoff.
  pose proof (sh_levels p s Hs) as Hll. pose proof (sh_stack p s Hs) as Hsl.
  rewrite (wr_ck n (st_stack s) (length S) (H + 1)) by (try apply nd_len; assumption || lia). rewrite bind_ok.
  rewrite wrc_ok, bind_ok by lia.
  match goal with |- context [set_stackoffset ?a ?b] => set (s1 := set_stackoffset a b) end.
  assert (Hs1' : shape p s1).
  { unfold s1. destruct Hs. constructor; stc; try assumption.
    - apply (setck_length n); (assumption || apply nd_len || lia).
    - now rewrite upd_length. }
  assert (Hb1 : built p nd e 0 s1) by (apply (built_stack _ _ s); (reflexivity || exact Hb)).
  assert (Hr1 : srepr n (st_stack s1) (st_stacklevels s1) ((0, nd 0 e) :: S)).
  { unfold s1. stc. apply (srepr_push n _ _ S (H + 1)); (assumption || apply nd_len || lia). }
  assert (Hq : exists s2, (if (0 <? thcount p) && (e =? 3)%N then
           let* x := rd (st_stack s1) ((length S + 1) * n) n in
           let* t := rdc (st_treehash s1) 0 in
           let* nd := wr (th_node t) 0 x in
           let* ths := wrc (st_treehash s1) 0 (mkTh (th_h t) (th_next_idx t) (th_stackusage t) (th_completed t) nd) in
           Ok (set_treehash s1 ths) else Ok s1) = Ok s2 /\ shape p s2 /\ built p nd e 0 s2 /\ frame s1 s2).
  { replace (0 <? thcount p) with true by (symmetry; apply Nat.ltb_lt; unfold thcount; lia). cbn [andb].
    destruct (N.eqb_spec e 3) as [->|Hn3].
    - apply copy3_spec; try assumption; [|apply (sh_stack p s1 Hs1')].
      assert (H1 : H <> 1) by (intros E1; rewrite E1 in He; cbn in He; lia).
      unfold S. rewrite bst_three; lia.
    - exists s1. split; [reflexivity|]. split; [assumption|]. split; [assumption|apply frame_refl]. }
  destruct Hq as (s2 & Heq2 & Hs2' & Hb2 & [F1 F2 F3 F4 F5 F6]). rewrite Heq2, bind_ok.
  destruct (su_while_spec e He (length S + 1) 0 ((0, nd 0 e) :: S) s2 (set_type (copy_subtree_addr addr_zero sub) 2))
    as (s3 & a3 & S' & Heq & HS' & Hoff' & Hr' & Hs3 & Hb3 & (Q1 & Q2 & Q3)).
  - lia.
  - apply ones_0.
  - change (2 ^ N.of_nat 0)%N with 1%N. rewrite N.div_1_r, Nat.sub_0_r. reflexivity.
  - cbn [length]. lia.
  - cbn [length]. lia.
  - rewrite F2. cbn [length s1 set_stackoffset st_stackoffset]. lia.
  - rewrite F1, F3. exact Hr1.
  - exact Hs2'.
  - exact Hb2.
  - repeat split; assumption.
  - rewrite Heq, bind_ok. eexists. split; [reflexivity|].
    assert (Hnx : st_next_leaf s3 = e) by (rewrite Q2, F5; exact Hn).
    split; [constructor|split].
    + destruct Hs3. constructor; assumption.
    + stc. rewrite Hnx. unfold u32. rewrite N.mod_small; [reflexivity|].
      assert (2 ^ N.of_nat H <= 2 ^ 30)%N by (apply N.pow_le_mono_r; lia).
      assert (2 ^ 30 + 1 < 2 ^ 32)%N by (now vm_compute). lia.
    + stc. rewrite Hoff', HS'. reflexivity.
    + stc. rewrite <- HS'. exact Hr'.
    + apply (built_stack _ _ s3); (reflexivity || exact Hb3).
    + stc. rewrite Q1, F4. reflexivity.
    + stc. rewrite Q3, F6. reflexivity.
Qed.
End One.
End Refine.
