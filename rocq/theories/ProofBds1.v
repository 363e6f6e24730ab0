(** BDS traversal, part 1: buffers of n-byte nodes, stacks, and the nodes a tree build
    leaves in the state (place_node). *)
From Verif Require Import Base Lib SpecRfc ModelUtils ModelParams ModelHash ModelWots ModelCommons ModelCore
  ModelCoreFast ProofUtils ProofHash ProofWots ProofCommons ProofTree.

(** ** The i-th n-byte piece of a buffer *)
Section Ck.
Variable n : nat.
Definition ck (b : bytes) (i : nat) : bytes := firstn n (skipn (i * n) b).
Definition setck (b : bytes) (i : nat) (x : bytes) : bytes := firstn (i * n) b ++ x ++ skipn (i * n + n) b.

Lemma ck_length b i k : length b = k * n -> i < k -> length (ck b i) = n.
Proof. intros Hl Hi. unfold ck. rewrite firstn_length, skipn_length. assert (i * n + n <= k * n) by nia. lia. Qed.
Lemma rd_ck b i k : length b = k * n -> i < k -> rd b (i * n) n = Ok (ck b i).
Proof. intros Hl Hi. apply rd_ok. assert (i * n + n <= k * n) by nia. lia. Qed.
Lemma wr_ck b i k x : length b = k * n -> i < k -> length x = n -> wr b (i * n) x = Ok (setck b i x).
Proof. intros Hl Hi Hx. unfold setck. rewrite <- Hx at 4. apply wr_ok. assert (i * n + n <= k * n) by nia. lia. Qed.
Lemma setck_length b i k x : length b = k * n -> i < k -> length x = n -> length (setck b i x) = k * n.
Proof.
  intros Hl Hi Hx. unfold setck. assert (i * n + n <= k * n) by nia.
  rewrite !app_length, firstn_length, skipn_length. lia.
Qed.
Lemma ck_setck_same b i k x : length b = k * n -> i < k -> length x = n -> ck (setck b i x) i = x.
Proof.
  intros Hl Hi Hx. unfold ck, setck. assert (i * n + n <= k * n) by nia.
  rewrite skipn_app, skipn_all2 by (rewrite firstn_length; lia).
  rewrite firstn_length, Nat.min_l by lia. rewrite Nat.sub_diag. cbn [app].
  change (skipn 0 (x ++ skipn (i * n + n) b)) with (x ++ skipn (i * n + n) b).
  rewrite firstn_app, <- Hx, Nat.sub_diag, firstn_all. cbn [firstn]. apply app_nil_r.
Qed.
Lemma ck_setck_other b i j k x : length b = k * n -> i < k -> j < k -> length x = n -> i <> j -> ck (setck b i x) j = ck b j.
Proof.
  intros Hl Hi Hj Hx Hne. unfold ck, setck. assert (i * n + n <= k * n) by nia. assert (j * n + n <= k * n) by nia.
  destruct (Nat.lt_gt_cases i j) as [Hc _]. destruct (Hc Hne) as [Hlt|Hgt].
  - assert (i * n + n <= j * n) by nia.
    rewrite skipn_app, skipn_all2 by (rewrite firstn_length; lia).
    rewrite firstn_length, Nat.min_l by lia. cbn [app].
    rewrite skipn_app, skipn_all2 by lia. cbn [app]. rewrite skipn_skipn. do 2 f_equal. lia.
  - assert (j * n + n <= i * n) by nia.
    rewrite skipn_app, firstn_app, skipn_length, firstn_length, Nat.min_l by lia.
    replace (n - (i * n - j * n)) with 0 by lia. cbn [firstn]. rewrite app_nil_r.
    rewrite skipn_firstn_comm, firstn_firstn. f_equal. lia.
Qed.
Lemma ck_app_l a b i k : length a = k * n -> i < k -> ck (a ++ b) i = ck a i.
Proof.
  intros Hl Hi. unfold ck. assert (i * n + n <= k * n) by nia. rewrite skipn_app, firstn_app, skipn_length.
  replace (n - (length a - i * n)) with 0 by lia. cbn [firstn]. apply app_nil_r.
Qed.
Lemma rd_all_ck b k : length b = k * n -> rd b 0 (k * n) = Ok (concat (map (ck b) (seq 0 k))).
Proof.
  intros Hl. rewrite rd_all by lia. f_equal.
  revert b Hl. induction k as [|k IH]; intros b Hl.
  - destruct b; [reflexivity|discriminate].
  - cbn [seq map concat]. unfold ck at 1. change (skipn (0 * n) b) with b.
    rewrite <- seq_shift, map_map. rewrite <- (firstn_skipn n b) at 1. f_equal.
    rewrite (IH (skipn n b)) at 1 by (rewrite skipn_length; cbn [Nat.mul] in Hl; lia).
    f_equal. apply map_ext. intros i. unfold ck. rewrite skipn_skipn. do 2 f_equal. cbn [Nat.mul]. lia.
Qed.
End Ck.

(** ** A stack of (level, node) pairs, top first, in two arrays *)
Section Srepr.
Variable n : nat.
Fixpoint srepr (stack : bytes) (levels : list N) (S : list (nat * bytes)) : Prop :=
  match S with
  | [] => True
  | x :: R => ck n stack (length R) = snd x /\ nth (length R) levels 0%N = N.of_nat (fst x) /\ srepr stack levels R
  end.
Lemma srepr_above stack levels S k m x l : length stack = m * n -> length S <= k -> k < m -> length x = n ->
  srepr stack levels S -> srepr (setck n stack k x) (upd levels k l) S.
Proof.
  intros Hl. induction S as [|y R IH]; intros Hk Hm Hx Hs; [exact I|]. cbn [length srepr] in *.
  destruct Hs as (H1 & H2 & H3). split; [|split].
  - rewrite (ck_setck_other n stack k (length R) m); (assumption || lia).
  - rewrite upd_nth_other by lia. exact H2.
  - apply IH; (assumption || lia).
Qed.
Lemma srepr_push stack levels S m x l : length stack = m * n -> length levels = m -> length S < m -> length x = n ->
  srepr stack levels S -> srepr (setck n stack (length S) x) (upd levels (length S) (N.of_nat l)) ((l, x) :: S).
Proof.
  intros Hl Hll Hm Hx Hs. cbn [srepr fst snd]. split; [|split].
  - now rewrite (ck_setck_same n stack (length S) m).
  - apply upd_nth_same. lia.
  - apply (srepr_above stack levels S (length S) m); (assumption || lia).
Qed.
Lemma srepr_app stack levels A B : srepr stack levels (A ++ B) -> srepr stack levels B.
Proof. induction A as [|x A IH]; [auto|]. cbn [app srepr]. intros (_ & _ & H). auto. Qed.
Lemma srepr_nth stack levels S : srepr stack levels S -> forall i d, i < length S ->
  nth (length S - i - 1) levels 0%N = N.of_nat (fst (nth i S d)).
Proof.
  induction S as [|x R IH]; intros Hs i d Hi; cbn [length] in *; [lia|]. destruct Hs as (H1 & H2 & H3).
  destruct i as [|i]; cbn [nth].
  - replace (S (length R) - 0 - 1) with (length R) by lia. exact H2.
  - replace (S (length R) - S i - 1) with (length R - i - 1) by lia. apply IH; [exact H3|lia].
Qed.
End Srepr.

Lemma pow2_ge j : j + 1 <= 2 ^ j.
Proof. induction j as [|j IH]; [cbn; lia|]. rewrite Nat.pow_succ_r'. lia. Qed.
Lemma pow2_gap a b : a <= b -> 2 ^ a + b <= 2 ^ b + a.
Proof. intros Hle. induction Hle as [|q Hle IH]; [lia|]. rewrite Nat.pow_succ_r'. pose proof (pow2_ge q). lia. Qed.
Lemma shl1_int_ok j : j < 31 -> shl1_int j = Ok (2 ^ N.of_nat j)%N.
Proof. intros Hj. unfold shl1_int. now replace (j <? 31) with true by (symmetry; now apply Nat.ltb_lt). Qed.
Lemma pow2_to_nat j : N.to_nat (2 ^ N.of_nat j) = 2 ^ j.
Proof. change 2%N with (N.of_nat 2). now rewrite <- Nat2N.inj_pow, Nat2N.id. Qed.
Lemma pow2_of_nat j : (2 ^ N.of_nat j)%N = N.of_nat (2 ^ j).
Proof. rewrite <- (pow2_to_nat j). now rewrite N2Nat.id. Qed.

(** node number q of level j has been finished: [e] leaves are done, and leaf number e has
    been merged up to (not including) level l *)
Definition done (e : N) (l j : nat) (q : N) : Prop :=
  ((q + 1) * 2 ^ N.of_nat j <= e)%N \/ (j < l /\ ((q + 1) * 2 ^ N.of_nat j = e + 1)%N).

Definition th_nd (s : bds_state) (j : nat) : bytes :=
  match nth_error (st_treehash s) j with Some t => th_node t | None => [] end.

(** everything but the node values of the treehash instances *)
Definition th_scal (t : treehash_inst) := (th_h t, th_next_idx t, th_stackusage t, th_completed t).
Record frame (s s' : bds_state) : Prop := mkFrame {
  fr_stack : st_stack s' = st_stack s;
  fr_off : st_stackoffset s' = st_stackoffset s;
  fr_lev : st_stacklevels s' = st_stacklevels s;
  fr_keep : st_keep s' = st_keep s;
  fr_next : st_next_leaf s' = st_next_leaf s;
  fr_th : map th_scal (st_treehash s') = map th_scal (st_treehash s) }.

Lemma done_S e l j q : done e (S l) j q -> done e l j q \/ (j = l /\ ((q + 1) * 2 ^ N.of_nat l = e + 1)%N).
Proof.
  intros [Hd|[Hj Hd]]; [left; left; exact Hd|]. destruct (Nat.eq_dec j l) as [->|Hn]; [right; auto|].
  left. right. split; [lia|exact Hd].
Qed.
Lemma done_next e l : ones e l -> N.testbit e (N.of_nat l) = false -> forall j q, done (e + 1) 0 j q -> done e (S l) j q.
Proof.
  intros Ho Hb j q [Hd|[Hj _]]; [|lia]. destruct (N.eq_dec ((q + 1) * 2 ^ N.of_nat j) (e + 1)) as [He|Hne]; [|left; lia].
  right. split; [|exact He]. destruct (Nat.lt_ge_cases j (S l)) as [Hlt|Hge]; [exact Hlt|exfalso].
  pose proof (ones_stop e l Ho Hb j Hge) as Hs. rewrite <- He, N.div_mul in Hs by apply pow2_pos.
  pose proof (N.mul_div_le e (2 ^ N.of_nat j) (pow2_pos j)) as Hm. rewrite <- Hs in Hm. lia.
Qed.
Lemma done_ones e l q : ones e l -> ((q + 1) * 2 ^ N.of_nat l = e + 1)%N -> (q = e / 2 ^ N.of_nat l)%N.
Proof.
  unfold ones. intros Ho Hq. rewrite <- Ho in Hq. rewrite N.mul_comm in Hq.
  apply N.mul_cancel_l in Hq; [lia|apply pow2_pos].
Qed.

Lemma frame_refl s : frame s s.
Proof. constructor; reflexivity. Qed.
Lemma frame_trans a b c : frame a b -> frame b c -> frame a c.
Proof. intros [A1 A2 A3 A4 A5 A6] [B1 B2 B3 B4 B5 B6]. constructor; congruence. Qed.

Lemma map_upd_same {A B} (g : A -> B) l i x y : nth_error l i = Some y -> g x = g y -> map g (upd l i x) = map g l.
Proof.
  revert i. induction l as [|z l IH]; intros [|i] Hy Hg; cbn [nth_error upd map] in *; try discriminate; try reflexivity.
  - injection Hy as ->. now rewrite Hg.
  - f_equal. now apply IH.
Qed.

(** ** Building a tree leaf by leaf *)
Section Build.
Context {E : Env}.
Variable p : xmss_params.
Notation n := (p_n p).
Notation H := (tree_height p).
Notation k := (bds_k p).
Definition thcount : nat := H - k.
Definition rcount : nat := 2 ^ k - k - 1.
(** index of the retained node number 2r+3 of level j *)
Definition ret_off (j : nat) : nat := 2 ^ (H - 1 - j) + j - H.
Hypothesis Hk : k < H.
Hypothesis HH30 : H <= 30.

Lemma th_count_ok : th_count p = Ok thcount.
Proof. unfold th_count, thcount. now replace (k <? H) with true by (symmetry; now apply Nat.ltb_lt). Qed.
Lemma retain_count_ok : retain_count p = Ok rcount.
Proof. unfold retain_count, rcount. rewrite shl1_int_ok by lia. rewrite bind_ok, pow2_to_nat. reflexivity. Qed.

(** the rows of retained nodes are disjoint and fit *)
Lemma ret_row j r : H - k <= j -> j < H -> 2 * r + 3 < 2 ^ (H - j) -> ret_off j + r < rcount.
Proof.
  intros Hj1 Hj2 Hr. unfold ret_off, rcount. replace (H - j) with (S (H - 1 - j)) in Hr by lia.
  rewrite Nat.pow_succ_r' in Hr. set (m := H - 1 - j) in *.
  assert (Hm : m + 1 <= 2 ^ m) by apply pow2_ge.
  assert (Hmk : 2 ^ (m + 1) + k <= 2 ^ k + (m + 1)).
  { apply pow2_gap. lia. }
  rewrite Nat.add_1_r, Nat.pow_succ_r' in Hmk. lia.
Qed.
Lemma ret_disjoint j1 j2 r1 r2 : H - k <= j1 -> j1 < H -> H - k <= j2 -> j2 < H ->
  2 * r1 + 3 < 2 ^ (H - j1) -> 2 * r2 + 3 < 2 ^ (H - j2) -> ret_off j1 + r1 = ret_off j2 + r2 -> j1 = j2 /\ r1 = r2.
Proof.
  assert (Hlt : forall j1 j2 r1 r2, j1 < j2 -> j2 < H -> 2 * r2 + 3 < 2 ^ (H - j2) -> ret_off j2 + r2 < ret_off j1 + r1).
  { intros a b r1' r2' Hab Hb Hr. unfold ret_off. replace (H - b) with (S (H - 1 - b)) in Hr by lia.
    rewrite Nat.pow_succ_r' in Hr. set (m := H - 1 - b) in *.
    assert (Hm : m + 1 <= 2 ^ m) by apply pow2_ge.
    assert (Hmk : 2 ^ (m + 1) + (H - 1 - a) <= 2 ^ (H - 1 - a) + (m + 1)).
    { apply pow2_gap. lia. }
    rewrite (Nat.add_1_r m), Nat.pow_succ_r' in Hmk. lia. }
  intros A1 A2 B1 B2 R1 R2 He. destruct (Nat.lt_trichotomy j1 j2) as [Hc|[->|Hc]].
  - pose proof (Hlt j1 j2 r1 r2 Hc B2 R2). lia.
  - split; lia.
  - pose proof (Hlt j2 j1 r2 r1 Hc A2 R1). lia.
Qed.

Variable nd : nat -> N -> bytes.
Hypothesis Hnd : forall j i, length (nd j i) = n.

(** sizes of the arrays of a state *)
Record shape (s : bds_state) : Prop := mkShape {
  sh_stack : length (st_stack s) = (H + 1) * n;
  sh_levels : length (st_stacklevels s) = H + 1;
  sh_auth : length (st_auth s) = H * n;
  sh_keep : length (st_keep s) = (H / 2) * n;
  sh_th : length (st_treehash s) = thcount;
  sh_nodes : forall j t, nth_error (st_treehash s) j = Some t -> length (th_node t) = n;
  sh_retain : length (st_retain s) = rcount * n }.

Record built (e : N) (l : nat) (s : bds_state) : Prop := mkBuilt {
  bu_auth : forall j, j < H -> done e l j 1 -> ck n (st_auth s) j = nd j 1;
  bu_th : forall j, j < thcount -> done e l j 3 -> th_nd s j = nd j 3;
  bu_ret : forall j r, H - k <= j -> j < H -> 2 * r + 3 < 2 ^ (H - j) -> done e l j (N.of_nat (2 * r + 3)) ->
    ck n (st_retain s) (ret_off j + r) = nd j (N.of_nat (2 * r + 3)) }.

(** storing a node into one treehash instance *)
Lemma set_th_node s j t x : shape s -> nth_error (st_treehash s) j = Some t -> length x = n ->
  let s' := set_treehash s (upd (st_treehash s) j (mkTh (th_h t) (th_next_idx t) (th_stackusage t) (th_completed t) x)) in
  (let* y := wr (th_node t) 0 x in
   let* ths := wrc (st_treehash s) j (mkTh (th_h t) (th_next_idx t) (th_stackusage t) (th_completed t) y) in
   Ok (set_treehash s ths)) = Ok s' /\ shape s' /\ frame s s' /\
  (forall i, th_nd s' i = if i =? j then x else th_nd s i).
Proof.
  intros Hs Ht Hx s'. assert (Hj : j < length (st_treehash s)) by (apply nth_error_Some; congruence).
  rewrite wr_all by (auto; rewrite (sh_nodes s Hs j t Ht); exact Hx). rewrite bind_ok, wrc_ok, bind_ok by exact Hj.
  split; [reflexivity|]. split; [|split].
  - destruct Hs. constructor; cbn; try assumption; [now rewrite upd_length|].
    intros i u Hu. destruct (Nat.eq_dec j i) as [<-|Hn].
    + rewrite nth_error_upd_same in Hu by exact Hj. injection Hu as <-. exact Hx.
    + rewrite nth_error_upd_other in Hu by exact Hn. eauto.
  - constructor; cbn; try reflexivity. apply (map_upd_same _ _ _ _ t Ht). reflexivity.
  - intros i. unfold th_nd, s'. cbn. destruct (Nat.eqb_spec i j) as [->|Hn].
    + now rewrite nth_error_upd_same.
    + now rewrite nth_error_upd_other by auto.
Qed.

Lemma place_node_spec e l s : shape s -> built e l s -> l < H -> (e < 2 ^ N.of_nat H)%N -> ones e l ->
  N.testbit e (N.of_nat l) = true ->
  exists s', place_node p s e l (nd l (e / 2 ^ N.of_nat l)%N) = Ok s' /\ shape s' /\ built e (S l) s' /\ frame s s'.
Proof.
  intros Hs Hb Hl He Ho Hbit. unfold place_node. cbv zeta.
  replace (32 <=? l) with false by (symmetry; apply Nat.leb_gt; lia).
  rewrite N.shiftr_div_pow2. set (q := (e / 2 ^ N.of_nat l)%N).
  assert (Hodd : N.odd q = true) by (unfold q; rewrite <- testbit_odd; exact Hbit).
  assert (HqH : (q < 2 ^ N.of_nat (H - l))%N).
  { unfold q. apply N.div_lt_upper_bound; [apply pow2_pos|]. rewrite <- N.pow_add_r.
    replace (N.of_nat l + N.of_nat (H - l))%N with (N.of_nat H) by lia. exact He. }
  assert (Hdn : forall j r, done e (S l) j r -> done e l j r \/ (j = l /\ r = q)).
  { intros j r Hd. destruct (done_S e l j r Hd) as [Hd'|[-> Hd']]; [auto|]. right. split; [reflexivity|]. now apply done_ones. }
  destruct (N.eqb_spec q 1) as [Hq1|Hq1].
  - rewrite (wr_ck n (st_auth s) l H) by (apply (sh_auth s Hs) || apply Hnd || lia). rewrite bind_ok.
    eexists. split; [reflexivity|]. split; [|split].
    + destruct Hs. constructor; cbn; try assumption. apply setck_length; (assumption || apply Hnd || lia).
    + constructor; cbn.
      * intros j Hj Hd. apply Hdn in Hd as [Hd|[-> <-]].
        -- destruct (Nat.eq_dec l j) as [<-|Hn].
           ++ rewrite (ck_setck_same n _ l H) by (apply (sh_auth s Hs) || apply Hnd || lia). now rewrite Hq1.
           ++ rewrite (ck_setck_other n _ l j H) by (apply (sh_auth s Hs) || apply Hnd || lia). now apply (bu_auth _ _ _ Hb).
        -- rewrite (ck_setck_same n _ l H) by (apply (sh_auth s Hs) || apply Hnd || lia). reflexivity.
      * intros j Hj Hd. change (th_nd s j = nd j 3). apply Hdn in Hd as [Hd|[-> Hd]]; [now apply (bu_th _ _ _ Hb)|lia].
      * intros j r Hj1 Hj2 Hr Hd. apply Hdn in Hd as [Hd|[-> Hd]]; [now apply (bu_ret _ _ _ Hb)|lia].
    + constructor; reflexivity.
  - assert (Hq3 : (3 <= q)%N).
    { apply N.odd_spec in Hodd. destruct Hodd as [m Hm]. lia. }
    destruct (Nat.ltb_spec l (H - k)) as [Hlk|Hlk]; cbn [andb].
    + replace (H - k <=? l) with false by (symmetry; apply Nat.leb_gt; lia).
      destruct (N.eqb_spec q 3) as [Hq|Hq].
      * assert (Hlt : l < length (st_treehash s)) by (rewrite (sh_th s Hs); exact Hlk).
        destruct (nth_error (st_treehash s) l) as [t|] eqn:Ht; [|apply nth_error_None in Ht; lia].
        rewrite (rdc_some _ _ t Ht), bind_ok.
        destruct (set_th_node s l t (nd l q) Hs Ht (Hnd _ _)) as (E1 & E2 & E3 & E4).
        eexists. split; [exact E1|]. split; [exact E2|]. split; [|exact E3].
        constructor.
        -- intros j Hj Hd. cbn. apply Hdn in Hd as [Hd|[-> Hd]]; [now apply (bu_auth _ _ _ Hb)|lia].
        -- intros j Hj Hd. rewrite E4. destruct (Nat.eqb_spec j l) as [->|Hn]; [now rewrite Hq|].
           apply Hdn in Hd as [Hd|[-> Hd]]; [now apply (bu_th _ _ _ Hb)|lia].
        -- intros j r Hj1 Hj2 Hr Hd. cbn. apply Hdn in Hd as [Hd|[-> Hd]]; [now apply (bu_ret _ _ _ Hb)|lia].
      * eexists. split; [reflexivity|]. split; [exact Hs|]. split; [|apply frame_refl].
        constructor.
        -- intros j Hj Hd. apply Hdn in Hd as [Hd|[-> Hd]]; [now apply (bu_auth _ _ _ Hb)|lia].
        -- intros j Hj Hd. apply Hdn in Hd as [Hd|[-> Hd]]; [now apply (bu_th _ _ _ Hb)|lia].
        -- intros j r Hj1 Hj2 Hr Hd. apply Hdn in Hd as [Hd|[-> Hd]]; [now apply (bu_ret _ _ _ Hb)|lia].
    + replace (H - k <=? l) with true by (symmetry; apply Nat.leb_le; lia).
      replace (H <=? l) with false by (symmetry; apply Nat.leb_gt; lia).
      replace (q <? 3)%N with false by (symmetry; apply N.ltb_ge; lia). cbn [orb].
      rewrite shl1_int_ok, bind_ok by lia. rewrite pow2_to_nat.
      assert (Hr : exists r, q = N.of_nat (2 * r + 3)).
      { apply N.odd_spec in Hodd. destruct Hodd as [m Hm]. exists (N.to_nat (m - 1)). lia. }
      destruct Hr as [r Hr].
      replace (N.to_nat (N.shiftr (q - 3) 1)) with r.
      2:{ rewrite N.shiftr_div_pow2. change (2 ^ 1)%N with 2%N. replace (q - 3)%N with (N.of_nat r * 2)%N by lia.
          rewrite N.div_mul by discriminate. lia. }
      change (2 ^ (H - 1 - l) + l - H + r) with (ret_off l + r).
      assert (Hr2 : 2 * r + 3 < 2 ^ (H - l)).
      { rewrite Hr, pow2_of_nat in HqH. lia. }
      pose proof (ret_row l r Hlk Hl Hr2) as Hrow.
      rewrite (wr_ck n (st_retain s) (ret_off l + r) rcount) by (apply (sh_retain s Hs) || apply Hnd || lia).
      rewrite bind_ok. eexists. split; [reflexivity|]. split; [|split].
      * destruct Hs. constructor; cbn; try assumption. apply setck_length; (assumption || apply Hnd || lia).
      * constructor; cbn.
        -- intros j Hj Hd. apply Hdn in Hd as [Hd|[-> Hd]]; [now apply (bu_auth _ _ _ Hb)|lia].
        -- intros j Hj Hd. change (th_nd s j = nd j 3). apply Hdn in Hd as [Hd|[-> Hd]]; [now apply (bu_th _ _ _ Hb)|].
           unfold thcount in Hj. lia.
        -- intros j r' Hj1 Hj2 Hr' Hd.
           destruct (Nat.eq_dec (ret_off l + r) (ret_off j + r')) as [Heq|Hn].
           ++ destruct (ret_disjoint l j r r' Hlk Hl Hj1 Hj2 Hr2 Hr' Heq) as [<- <-].
              rewrite (ck_setck_same n _ _ rcount) by (apply (sh_retain s Hs) || apply Hnd || lia). now rewrite Hr.
           ++ rewrite (ck_setck_other n _ _ _ rcount)
                by (apply (sh_retain s Hs) || apply Hnd || lia || (apply ret_row; assumption)).
              apply Hdn in Hd as [Hd|[-> Hd]]; [now apply (bu_ret _ _ _ Hb)|]. exfalso. apply Hn. f_equal. lia.
      * constructor; reflexivity.
Qed.
End Build.
