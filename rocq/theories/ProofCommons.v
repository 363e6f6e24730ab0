(** xmss_commons.c (l_tree, compute_root, gen_leaf_wots) against the specification. *)
From Verif Require Import Base Lib SpecRfc ModelUtils ModelParams ModelHash ModelWots ModelCommons
  ProofUtils ProofHash ProofWots.

Lemma ltree_level_map P seed L T o height : forall k nodes i, length nodes <= k ->
  ltree_level P seed L T o height i nodes =
  map (fun j => RAND_HASH P seed (LTREE L T o (N.of_nat height) (N.of_nat (i + j)))
                  (nth (2 * j) nodes []) (nth (2 * j + 1) nodes []))
      (seq 0 (length nodes / 2))
  ++ (if Nat.odd (length nodes) then [nth (length nodes - 1) nodes []] else []).
Proof.
  induction k as [|k IH]; intros nodes i Hk.
  - destruct nodes; [reflexivity|cbn in Hk; lia].
  - destruct nodes as [|a [|b rest]]; [reflexivity|reflexivity|].
    cbn [length] in Hk |- *. cbn [ltree_level].
    rewrite (IH rest (S i)) by lia.
    replace (S (S (length rest)) / 2) with (S (length rest / 2)) by lia.
    cbn [seq map app]. f_equal.
    + rewrite Nat.add_0_r. reflexivity.
    + rewrite <- seq_shift, map_map. f_equal.
      * apply map_ext. intros j. replace (S i + j) with (i + S j) by lia.
        replace (2 * S j) with (S (S (2 * j))) by lia. replace (2 * S j + 1) with (S (S (2 * j + 1))) by lia.
        reflexivity.
      * cbn [Nat.odd Nat.even]. change (Nat.odd (S (S (length rest)))) with (Nat.odd (length rest)).
        destruct (Nat.odd (length rest)) eqn:Ho; [|reflexivity].
        f_equal. destruct rest as [|c rest]; [discriminate|].
        cbn [length]. replace (S (S (S (length rest))) - 1) with (S (S (S (length rest) - 1))) by lia. reflexivity.
Qed.

Lemma ltree_level_length P seed L T o height i nodes :
  length (ltree_level P seed L T o height i nodes) = (length nodes + 1) / 2.
Proof.
  rewrite (ltree_level_map P seed L T o height (length nodes)) by lia.
  rewrite app_length, map_length, seq_length.
  pose proof (Nat.div2_odd (length nodes)) as Hd. rewrite Nat.div2_div in Hd.
  destruct (Nat.odd (length nodes)); cbn [length Nat.b2n] in *; lia.
Qed.

Section Refine.
Context {E : Env}.
Variable p : xmss_params.
Variable Hf : bytes -> bytes.
Hypothesis Hp : params_ok p.
Hypothesis HH : hash_total p Hf.
Notation P := (sp_of p Hf).
Notation n := (p_n p).

(** ** L-tree *)
Definition lt_ctx (a : addr) (L T o : N) (height : nat) : Prop :=
  words a L T 1 /\ w4 a o /\ w5 a (N.of_nat height).

Lemma ltree_level_chunked seed L T o height i nodes :
  chunked n nodes -> chunked n (ltree_level P seed L T o height i nodes).
Proof.
  intros Hc. rewrite (ltree_level_map P seed L T o height (length nodes)) by lia.
  apply chunked_app. split.
  - apply chunked_map_seq. intros. apply (RAND_HASH_length p Hf HH).
  - destruct (Nat.odd (length nodes)) eqn:Ho; constructor; [|constructor].
    apply chunked_nth; [exact Hc|]. destruct nodes; [discriminate|cbn; lia].
Qed.

Lemma l_tree_loop_spec seed L T o : length seed = n -> forall fuel height nodes tail a,
  1 <= length nodes <= fuel -> chunked n (nodes ++ tail) -> lt_ctx a L T o height ->
  exists tail' a' h', l_tree_loop p fuel (length nodes) height (concat (nodes ++ tail)) seed a
     = Ok (concat (ltree P seed L T o fuel height nodes :: tail'), a') /\
     length tail' = length nodes + length tail - 1 /\
     chunked n (ltree P seed L T o fuel height nodes :: tail') /\ lt_ctx a' L T o h'.
Proof.
  intros Hseed. induction fuel as [|fuel IH]; intros height nodes tail a Hl Hc Ha; [lia|].
  cbn [l_tree_loop ltree]. destruct (Nat.leb_spec (length nodes) 1) as [Hle|Hgt].
  - destruct nodes as [|x [|y nodes]]; cbn [length] in *; try lia.
    exists tail, a, height. split; [reflexivity|]. split; [lia|]. split; [exact Hc|exact Ha].
  - set (l := length nodes) in *.
    set (f := fun j => RAND_HASH P seed (LTREE L T o (N.of_nat height) (N.of_nat (0 + j)))
                  (nth (2 * j) nodes []) (nth (2 * j + 1) nodes [])).
    match goal with |- context [forN (l / 2) 0 ?body ?s0] =>
      destruct (forN_inv (fun i '(buf, b) =>
         buf = concat (map f (seq 0 i) ++ skipn i nodes ++ tail) /\ lt_ctx b L T o height)
         (l / 2) 0 body s0) as [[buf b] [Heq [Hbuf Hb]]] end.
    { intros j [buf b] Hj [Hbuf Hb]. cbv beta iota zeta.
      apply chunked_app in Hc. destruct Hc as [Hcn Hct].
      assert (Hch : chunked n (map f (seq 0 j) ++ skipn j nodes ++ tail)).
      { apply chunked_app. split; [apply chunked_map_seq; intros; apply (RAND_HASH_length p Hf HH)|].
        apply chunked_app. split; [now apply chunked_skipn|exact Hct]. }
      assert (Hlen : length (map f (seq 0 j) ++ skipn j nodes ++ tail) = l + length tail).
      { rewrite !app_length, map_length, seq_length, skipn_length. fold l. lia. }
      assert (Hnth : forall k, j <= k -> k < l -> nth k (map f (seq 0 j) ++ skipn j nodes ++ tail) [] = nth k nodes []).
      { intros k Hk1 Hk2. rewrite app_nth2 by (rewrite map_length, seq_length; lia).
        rewrite map_length, seq_length. rewrite app_nth1 by (rewrite skipn_length; fold l; lia).
        rewrite <- (firstn_skipn j nodes) at 2. rewrite app_nth2 by (rewrite firstn_length; fold l; lia).
        rewrite firstn_length. f_equal. fold l. lia. }
      rewrite Hbuf. rewrite (rd_chunk2 n) by (assumption || lia). rewrite bind_ok.
      rewrite !Hnth by lia.
      destruct Hb as (Hw & H4 & H5).
      rewrite (thash_h_spec p Hf HH _ _ seed _ (LTREE L T o (N.of_nat height) (N.of_nat j)));
        [|apply chunked_nth; [exact Hcn|fold l; lia]|apply chunked_nth; [exact Hcn|fold l; lia]|exact Hseed|].
      2:{ intros k. apply addr_bytes_ltree; try reflexivity; assumption. }
      rewrite bind_ok. rewrite (wr_chunk0 n); [|exact Hch|lia|apply (RAND_HASH_length p Hf HH)].
      rewrite bind_ok. eexists. split; [reflexivity|]. split.
      - f_equal. rewrite (skipn_nth [] nodes j) by (fold l; lia). cbn [app].
        rewrite upd_app_mid by (rewrite map_length, seq_length; reflexivity).
        rewrite map_seq_S, <- app_assoc. cbn [app]. f_equal. f_equal. unfold f. cbn [Nat.add].
        replace (j * 2) with (2 * j) by lia. replace (S (2 * j)) with (2 * j + 1) by lia. reflexivity.
      - split; [exact Hw|split; [exact H4|exact H5]]. }
    { split; [reflexivity|exact Ha]. }
    rewrite Heq, bind_ok. cbn [Nat.add] in Hbuf.
    apply chunked_app in Hc. destruct Hc as [Hcn Hct].
    pose proof (ltree_level_map P seed L T o height l nodes 0 (le_n _)) as Hlm. fold l f in Hlm.
    assert (Hl' : length (ltree_level P seed L T o height 0 nodes) = (l + 1) / 2) by apply ltree_level_length.
    assert (Hcl : chunked n (ltree_level P seed L T o height 0 nodes)) by (now apply ltree_level_chunked).
    set (lvl := ltree_level P seed L T o height 0 nodes) in *.
    assert (Hb' : lt_ctx (set_tree_height b (N.of_nat (S height))) L T o (S height)).
    { destruct Hb as (Hw & H4 & H5). split; [exact Hw|split; [exact H4|reflexivity]]. }
    destruct (Nat.odd l) eqn:Hodd.
    + assert (Hlo : l = 2 * (l / 2) + 1).
      { pose proof (Nat.div2_odd l) as Hd. rewrite Nat.div2_div, Hodd in Hd. cbn [Nat.b2n] in Hd. exact Hd. }
      assert (Hch : chunked n (map f (seq 0 (l / 2)) ++ skipn (l / 2) nodes ++ tail)).
      { apply chunked_app. split; [apply chunked_map_seq; intros; apply (RAND_HASH_length p Hf HH)|].
        apply chunked_app. split; [now apply chunked_skipn|exact Hct]. }
      assert (Hlen : length (map f (seq 0 (l / 2)) ++ skipn (l / 2) nodes ++ tail) = l + length tail).
      { rewrite !app_length, map_length, seq_length, skipn_length. fold l. lia. }
      rewrite Hbuf. rewrite (rd_chunk0 n) by (assumption || lia). rewrite bind_ok.
      assert (Hnl : nth (l - 1) (map f (seq 0 (l / 2)) ++ skipn (l / 2) nodes ++ tail) [] = nth (l - 1) nodes []).
      { rewrite app_nth2 by (rewrite map_length, seq_length; lia).
        rewrite map_length, seq_length. rewrite app_nth1 by (rewrite skipn_length; fold l; lia).
        rewrite <- (firstn_skipn (l / 2) nodes) at 2. rewrite app_nth2 by (rewrite firstn_length; fold l; lia).
        rewrite firstn_length. f_equal. fold l. lia. }
      rewrite Hnl. rewrite (wr_chunk0 n); [|exact Hch|lia|apply chunked_nth; [exact Hcn|fold l; lia]].
      rewrite !bind_ok.
      assert (Hdec : upd (map f (seq 0 (l / 2)) ++ skipn (l / 2) nodes ++ tail) (l / 2) (nth (l - 1) nodes [])
                   = lvl ++ (skipn (S (l / 2)) nodes ++ tail)).
      { rewrite (skipn_nth [] nodes (l / 2)) by (fold l; lia). cbn [app].
        rewrite upd_app_mid by (rewrite map_length, seq_length; reflexivity).
        rewrite Hlm, <- app_assoc. reflexivity. }
      rewrite Hdec.
      replace (l / 2 + 1) with (length lvl) by lia.
      destruct (IH (S height) lvl (skipn (S (l / 2)) nodes ++ tail) (set_tree_height b (N.of_nat (S height)))) as (tail' & a' & h' & Heq2 & Hlt & Hct' & Ha').
      * rewrite Hl'. lia.
      * apply chunked_app. split; [exact Hcl|]. apply chunked_app. split; [now apply chunked_skipn|exact Hct].
      * exact Hb'.
      * exists tail', a', h'. split; [exact Heq2|]. split; [|split; assumption].
        rewrite Hlt, Hl', app_length, skipn_length. fold l. lia.
    + assert (Hlo : l = 2 * (l / 2)).
      { pose proof (Nat.div2_odd l) as Hd. rewrite Nat.div2_div, Hodd in Hd. cbn [Nat.b2n] in Hd. lia. }
      rewrite bind_ok. rewrite app_nil_r in Hlm. rewrite Hbuf, <- Hlm.
      assert (Hl2 : length lvl = l / 2) by lia.
      destruct (IH (S height) lvl (skipn (l / 2) nodes ++ tail) (set_tree_height b (N.of_nat (S height)))) as (tail' & a' & h' & Heq2 & Hlt & Hct' & Ha').
      * rewrite Hl'. lia.
      * apply chunked_app. split; [exact Hcl|]. apply chunked_app. split; [now apply chunked_skipn|exact Hct].
      * exact Hb'.
      * exists tail', a', h'. split; [rewrite <- Hl2; rewrite Hl2 in Heq2 |- *; exact Heq2|]. split; [|split; assumption].
        rewrite Hlt, Hl', app_length, skipn_length. fold l. lia.
Qed.

Lemma l_tree_spec seed L T o nodes a : length seed = n -> chunked n nodes -> length nodes = wots_len p ->
  words a L T 1 -> w4 a o ->
  exists a' h', l_tree p (concat nodes) seed a = Ok (ltree P seed L T o (sp_len P) 0 nodes, a') /\ lt_ctx a' L T o h'.
Proof.
  intros Hs Hc Hl Hw H4. unfold l_tree. cbv zeta. pose proof (len_pos p Hp) as [Hl1 Hl2].
  assert (Hlen : wots_len p = wots_len1 p + wots_len2 p) by exact (po_len p Hp).
  destruct (l_tree_loop_spec seed L T o Hs (wots_len p) 0 nodes [] (set_tree_height a 0))
    as (tail' & a' & h' & Heq & Hlt & Hct & Ha').
  - lia.
  - now rewrite app_nil_r.
  - split; [exact Hw|split; [exact H4|reflexivity]].
  - rewrite app_nil_r, Hl in Heq. rewrite Heq, bind_ok. exists a', h'. split; [|exact Ha'].
    rewrite (len_P p Hf Hp) in *. cbn [concat]. inversion Hct as [|? ? Hx _]; subst.
    rewrite rd_ok by (rewrite app_length; lia). rewrite bind_ok. cbn [skipn].
    rewrite firstn_app, Hx, Nat.sub_diag. cbn [firstn]. rewrite app_nil_r, firstn_all2 by lia. reflexivity.
Qed.

Lemma ltree_length seed L T o k : forall height nodes, chunked n nodes -> 1 <= length nodes ->
  length (ltree P seed L T o k height nodes) = n.
Proof.
  induction k as [|k IH]; intros height nodes Hc Hl; cbn [ltree].
  - destruct nodes; [cbn in Hl; lia|]. now inversion Hc.
  - destruct (Nat.leb_spec (length nodes) 1).
    + destruct nodes; [cbn in Hl; lia|]. now inversion Hc.
    + apply IH; [now apply ltree_level_chunked|]. rewrite ltree_level_length. lia.
Qed.
Lemma ltree_bytes seed L T o k : forall height nodes, Forall bytes_ok nodes -> bytes_ok (ltree P seed L T o k height nodes).
Proof.
  assert (Hhd : forall nodes : list bytes, Forall bytes_ok nodes -> bytes_ok (hd [] nodes)).
  { intros [|x nodes] Hn; [constructor|now inversion Hn]. }
  induction k as [|k IH]; intros height nodes Hc; cbn [ltree]; [auto|].
  destruct (length nodes <=? 1); [auto|]. apply IH.
  rewrite (ltree_level_map P seed L T o height (length nodes)) by lia.
  apply Forall_app. split.
  - apply Forall_forall. intros x Hx. apply in_map_iff in Hx. destruct Hx as [j [<- _]]. apply (RAND_HASH_bytes p Hf HH).
  - destruct (Nat.odd (length nodes)) eqn:Ho; constructor; [|constructor].
    apply (proj1 (Forall_forall _ _) Hc). apply nth_In. destruct nodes; [discriminate|cbn; lia].
Qed.

(** ** Leaves *)
Lemma gen_leaf_wots_spec sks seed L T i lta ota : length sks = n -> length seed = n ->
  words lta L T 1 -> w4 lta i -> ots_ctx ota L T i ->
  exists lta' ota' h', gen_leaf_wots p sks seed lta ota = Ok (leaf P sks seed L T i, lta', ota') /\
    lt_ctx lta' L T i h' /\ ots_ctx ota' L T i.
Proof.
  intros Hk Hs Hw H4 Ho. unfold gen_leaf_wots.
  destruct (wots_pkgen_spec p Hf Hp HH seed L T i Hs sks ota Hk Ho) as [ota' [Heq Ho']].
  rewrite Heq, bind_ok.
  destruct (l_tree_spec seed L T i (wots_pk P seed L T i sks) lta Hs) as (lta' & h' & Heq2 & Hl');
    [apply (wots_pk_chunked p Hf HH)|now apply wots_pk_length|exact Hw|exact H4|].
  rewrite Heq2, bind_ok. exists lta', ota', h'. split; [reflexivity|split; assumption].
Qed.

Lemma leaf_length sks seed L T i : length (leaf P sks seed L T i) = n.
Proof.
  apply ltree_length; [apply (wots_pk_chunked p Hf HH)|].
  rewrite (wots_pk_length p Hf Hp). pose proof (len_pos p Hp). rewrite (po_len p Hp). lia.
Qed.
Lemma leaf_bytes sks seed L T i : bytes_ok (leaf P sks seed L T i).
Proof.
  apply ltree_bytes. apply Forall_forall. intros x Hx. apply in_map_iff in Hx. destruct Hx as [c [<- _]].
  apply (chain_bytes p Hf HH). apply (sk_bytes p Hf HH).
Qed.
Lemma node_length sks seed L T j i : length (node P sks seed L T j i) = n.
Proof. destruct j; [apply leaf_length|apply (RAND_HASH_length p Hf HH)]. Qed.
Lemma node_bytes sks seed L T j i : bytes_ok (node P sks seed L T j i).
Proof. destruct j; [apply leaf_bytes|apply (RAND_HASH_bytes p Hf HH)]. Qed.

(** ** compute_root *)
Lemma climb_app seed L T a1 : forall nd j i a2,
  climb P seed L T nd j i (a1 ++ a2) =
  climb P seed L T (climb P seed L T nd j i a1) (j + length a1) (i / 2 ^ N.of_nat (length a1))%N a2.
Proof.
  induction a1 as [|a a1 IH]; intros nd j i a2.
  - cbn [app climb length]. rewrite Nat.add_0_r. change (2 ^ N.of_nat 0)%N with 1%N. now rewrite N.div_1_r.
  - cbn [app climb length]. rewrite IH. f_equal; [lia|].
    rewrite Nat2N.inj_succ, N.pow_succ_r'. rewrite N.div_div by (try discriminate; apply N.pow_nonzero; discriminate).
    reflexivity.
Qed.

Lemma climb_length seed L T auth : forall nd j i, length nd = n -> length (climb P seed L T nd j i auth) = n.
Proof.
  induction auth as [|a auth IH]; intros nd j i Hn; [exact Hn|]. cbn [climb]. apply IH.
  destruct (N.even i); apply (RAND_HASH_length p Hf HH).
Qed.
Lemma climb_bytes seed L T auth : forall nd j i, bytes_ok nd -> bytes_ok (climb P seed L T nd j i auth).
Proof.
  induction auth as [|a auth IH]; intros nd j i Hn; [exact Hn|]. cbn [climb]. apply IH.
  destruct (N.even i); apply (RAND_HASH_bytes p Hf HH).
Qed.

Definition ht_ctx (a : addr) (L T : N) : Prop := words a L T 2 /\ a4 a = 0%N.

Lemma compute_root_spec seed L T lf idx auth pre post a : length seed = n ->
  length lf = n -> chunked n auth -> length auth = tree_height p -> ht_ctx a L T ->
  exists a', compute_root p lf idx (pre ++ concat auth ++ post) (length pre) seed a =
     Ok (climb P seed L T lf 0 idx auth, a') /\ ht_ctx a' L T.
Proof.
  intros Hs Hlf Hc Hl Ha. unfold compute_root. cbv zeta. pose proof (po_th p Hp) as Hth.
  rewrite (rd_all lf) by auto. rewrite bind_ok.
  assert (Hrdk : forall k, k < tree_height p ->
            rd (pre ++ concat auth ++ post) (length pre + k * n) n = Ok (nth k auth [])).
  { intros k Hk. apply rd_chunk; [exact Hc|lia]. }
  assert (Hrd0 : rd (pre ++ concat auth ++ post) (length pre) n = Ok (nth 0 auth [])).
  { rewrite <- (Hrdk 0) by lia. f_equal. lia. }
  rewrite Hrd0, bind_ok. destruct (Nat.eqb_spec (tree_height p) 0) as [Hz|_]; [lia|].
  set (nd := fun k => climb P seed L T lf 0 idx (firstn k auth)).
  assert (Hnd : forall k, length (nd k) = n) by (intros; now apply climb_length).
  assert (Han : forall k, k < tree_height p -> length (nth k auth []) = n).
  { intros. apply chunked_nth; [exact Hc|lia]. }
  set (ixk := fun k : nat => N.shiftr idx (N.of_nat k)).
  set (pairk := fun k => if N.odd (ixk k) then nth k auth [] ++ nd k else nd k ++ nth k auth []).
  (* hashing the pair on level k gives the next node *)
  assert (Hstep : forall k b, k < tree_height p -> ht_ctx b L T ->
     exists b', thash_h p (pairk k) seed
       (set_tree_index (set_tree_height b (N.of_nat k)) (N.shiftr (ixk k) 1)) = Ok (nd (S k), b') /\ ht_ctx b' L T).
  { intros k b Hk [Hw H4].
    assert (Hndk : nd (S k) = if N.even (ixk k)
       then RAND_HASH P seed (HTREE L T (N.of_nat k) (ixk k / 2)) (nd k) (nth k auth [])
       else RAND_HASH P seed (HTREE L T (N.of_nat k) (ixk k / 2)) (nth k auth []) (nd k)).
    { unfold nd at 1. rewrite (firstn_S_nth []) by lia. rewrite climb_app. fold (nd k).
      rewrite firstn_length. replace (Nat.min k (length auth)) with k by lia. cbn [climb Nat.add].
      unfold ixk. rewrite N.shiftr_div_pow2. reflexivity. }
    rewrite Hndk. unfold pairk. rewrite <- N.negb_even.
    replace (N.shiftr (ixk k) 1) with (ixk k / 2)%N by (rewrite N.shiftr_div_pow2; reflexivity).
    destruct (N.even (ixk k)); cbn [negb];
      (rewrite (thash_h_spec p Hf HH _ _ seed _ (HTREE L T (N.of_nat k) (ixk k / 2)));
       [eexists; split; [reflexivity|split; assumption]|auto|auto|exact Hs|
        intros; apply addr_bytes_htree; try reflexivity; assumption]). }
  match goal with |- context [forN ?k0 0 ?body ?s0] =>
    destruct (forN_inv (fun i '(buf, ix, off, b) =>
       buf = pairk i /\ ix = ixk i /\ off = length pre + (i + 1) * n /\ ht_ctx b L T)
       k0 0 body s0) as [[[[buf ix] off] b] [Heq (Hbuf & Hix & Hoff & Hb)]] end.
  - intros j [[[buf ix] off] b] Hj (-> & -> & -> & Hb). cbv beta iota zeta.
    destruct (Hstep j b) as [b' [Hth' Hb']]; [lia|exact Hb|].
    rewrite Hth', bind_ok. rewrite Hrdk by lia. rewrite bind_ok.
    assert (Hix : N.shiftr (ixk j) 1 = ixk (S j)).
    { unfold ixk. rewrite N.shiftr_shiftr. f_equal. lia. }
    rewrite Hix.
    assert (Hpl : exists x y, pairk j = x ++ y /\ length x = n /\ length y = n).
    { unfold pairk. destruct (N.odd (ixk j)).
      - exists (nth j auth []), (nd j). split; [reflexivity|split; [apply Han; lia|apply Hnd]].
      - exists (nd j), (nth j auth []). split; [reflexivity|split; [apply Hnd|apply Han; lia]]. }
    destruct Hpl as (x & y & Hxy & Hx & Hy). rewrite Hxy.
    assert (Hlast : wr (x ++ y) n (nd (S j)) = Ok (x ++ nd (S j))).
    { rewrite <- (app_nil_r y). rewrite wr_app by (rewrite ?Hnd; lia). now rewrite app_nil_r. }
    assert (Hfst : forall u v w : bytes, length u = n -> length w = n -> wr (u ++ v) 0 w = Ok (w ++ v)).
    { intros u v w Hu Hw'. change (u ++ v) with ([] ++ u ++ v). apply wr_app; [reflexivity|lia]. }
    destruct (N.odd (ixk (S j))) eqn:Hodd.
    + rewrite Hlast, bind_ok, Hfst by (rewrite ?Han; lia). rewrite bind_ok. eexists. split; [reflexivity|].
      split; [|split; [reflexivity|split; [lia|exact Hb']]].
      unfold pairk. rewrite Hodd. f_equal. f_equal. lia.
    + rewrite Hfst by (rewrite ?Hnd; lia). rewrite bind_ok.
      assert (Hl2 : wr (nd (S j) ++ y) n (nth (j + 1) auth []) = Ok (nd (S j) ++ nth (j + 1) auth [])).
      { rewrite <- (app_nil_r y). rewrite wr_app by (rewrite ?Hnd, ?Han; lia). now rewrite app_nil_r. }
      rewrite Hl2, bind_ok. eexists. split; [reflexivity|].
      split; [|split; [reflexivity|split; [lia|exact Hb']]].
      unfold pairk. rewrite Hodd. f_equal. f_equal. lia.
  - split; [|split; [|split; [lia|exact Ha]]].
    + unfold pairk, ixk, nd. cbn [firstn climb]. now rewrite N.shiftr_0_r.
    + unfold ixk. now rewrite N.shiftr_0_r.
  - rewrite Heq, bind_ok. rewrite Hbuf, Hix. cbn [Nat.add].
    destruct (Hstep (tree_height p - 1) b) as [b' [Hth' Hb']]; [lia|exact Hb|].
    exists b'. rewrite Hth'. split; [|exact Hb'].
    replace (S (tree_height p - 1)) with (length auth) by lia. unfold nd. now rewrite firstn_all.
Qed.
End Refine.
