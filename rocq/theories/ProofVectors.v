(** test/vectors.c prints what the specification says. *)
From Verif Require Import Base Lib ModelUtils ModelParams ModelFips202 ModelHash ModelWots ModelCommons ModelCore ModelXmss ModelUi ModelVectors
  SpecRfc SpecFips202 SpecParams SpecVectors ProofUtils ProofHash ProofWots ProofWotsAny ProofCommons.

Lemma lta_map P W seed height : forall k nodes i, length nodes <= k ->
  ltree_level_at P W seed height i nodes =
  map (fun j => rand_hash_at P W seed height (i + j)
                  (nth (2 * j) nodes []) (nth (2 * j + 1) nodes []))
      (seq 0 (length nodes / 2))
  ++ (if Nat.odd (length nodes) then [nth (length nodes - 1) nodes []] else []).
Proof.
  induction k as [|k IH]; intros nodes i Hk.
  - destruct nodes; [reflexivity|cbn in Hk; lia].
  - destruct nodes as [|a [|b rest]]; [reflexivity|reflexivity|].
    cbn [length] in Hk |- *. cbn [ltree_level_at].
    rewrite (IH rest (S i)) by lia.
    replace (S (S (length rest)) / 2) with (S (length rest / 2)) by lia.
    cbn [seq map app]. f_equal.
    + rewrite Nat.add_0_r. reflexivity.
    + rewrite <- seq_shift, map_map. f_equal.
      * apply map_ext. intros j. replace (S i + j) with (i + S j) by lia.
        replace (2 * S j) with (S (S (2 * j))) by lia. replace (2 * S j + 1) with (S (S (2 * j + 1))) by lia.
        reflexivity.
      * cbn [Nat.odd Nat.even]. change (Nat.odd (S (S (length rest)))) with (Nat.odd (length rest)).
        destruct (Nat.odd (length rest)) eqn:Ho; [|reflexivity].
        f_equal. destruct rest as [|c rest]; [discriminate|].
        cbn [length]. replace (S (S (S (length rest))) - 1) with (S (S (S (length rest) - 1))) by lia. reflexivity.
Qed.

Lemma lta_length P W seed height i nodes :
  length (ltree_level_at P W seed height i nodes) = (length nodes + 1) / 2.
Proof.
  rewrite (lta_map P W seed height (length nodes)) by lia.
  rewrite app_length, map_length, seq_length.
  pose proof (Nat.div2_odd (length nodes)) as Hd. rewrite Nat.div2_div in Hd.
  destruct (Nat.odd (length nodes)); cbn [length Nat.b2n] in *; lia.
Qed.

Section Refine.
Context {E : Env}.
Variable p : xmss_params.
Variable Hf : bytes -> bytes.
Hypothesis Hp : params_ok p.
Hypothesis HH : hash_total p Hf.
Notation P := (sp_of p Hf).
Notation n := (p_n p).
Variable W : bytes.
(** the first five words *)
Definition pre (a : addr) : bytes := toByte (a0 a) 4 ++ toByte (a1 a) 4 ++ toByte (a2 a) 4 ++ toByte (a3 a) 4 ++ toByte (a4 a) 4.

(** ** L-tree *)
Definition lt_ctx (a : addr) (height : nat) : Prop := pre a = W /\ a5 a = u32 (N.of_nat height).
Lemma pre_bytes a x y k : pre a = W -> a5 a = u32 (N.of_nat x) -> a6 a = u32 (N.of_nat y) -> addr_to_bytes (set_key_and_mask a (N.of_nat k)) = adr W x y k.
Proof.
  intros H0 H5 H6. unfold addr_to_bytes, adr. rewrite <- H0. unfold pre. cbn [set_key_and_mask a0 a1 a2 a3 a4 a5 a6 a7]. rewrite H5, H6, !ull_to_bytes_spec, !toByte_u32, <- !app_assoc. reflexivity.
Qed.
Lemma rha_length seed x y l r : length (rand_hash_at P W seed x y l r) = n.
Proof. apply (Hf_length p Hf HH). Qed.
Lemma thash_h_at l r seed a x y : length l = n -> length r = n -> length seed = n -> pre a = W -> a5 a = u32 (N.of_nat x) -> a6 a = u32 (N.of_nat y) ->
  thash_h p (l ++ r) seed a = Ok (rand_hash_at P W seed x y l r, set_key_and_mask a 2).
Proof.
  intros Hl Hr Hs HW H5 H6. unfold thash_h.
  rewrite (prf_spec p Hf HH) by (auto using addr_to_bytes_length). rewrite bind_ok.
  change (set_key_and_mask (set_key_and_mask a 0) 1) with (set_key_and_mask a 1).
  rewrite (prf_spec p Hf HH) by (auto using addr_to_bytes_length). rewrite bind_ok.
  change (set_key_and_mask (set_key_and_mask a 1) 2) with (set_key_and_mask a 2).
  rewrite (prf_spec p Hf HH) by (auto using addr_to_bytes_length). rewrite bind_ok.
  rewrite rd_all by (rewrite ?app_length; lia). rewrite bind_ok, (core_hash_ok p Hf HH), bind_ok, ull_to_bytes_spec.
  pose proof (pre_bytes a x y 0 HW H5 H6) as B0. pose proof (pre_bytes a x y 1 HW H5 H6) as B1. pose proof (pre_bytes a x y 2 HW H5 H6) as B2.
  change (N.of_nat 0) with 0%N in B0. change (N.of_nat 1) with 1%N in B1. change (N.of_nat 2) with 2%N in B2. rewrite B0, B1, B2.
  rewrite xor_bytes_spec, xorb_app by (rewrite (PRF_length p Hf HH); congruence). reflexivity.
Qed.

Lemma lta_chunked seed height i nodes :
  chunked n nodes -> chunked n (ltree_level_at P W seed height i nodes).
Proof.
  intros Hc. rewrite (lta_map P W seed height (length nodes)) by lia.
  apply chunked_app. split.
  - apply chunked_map_seq. intros. apply rha_length.
  - destruct (Nat.odd (length nodes)) eqn:Ho; constructor; [|constructor].
    apply chunked_nth; [exact Hc|]. destruct nodes; [discriminate|cbn; lia].
Qed.

Lemma l_tree_loop_at seed : length seed = n -> forall fuel height nodes tail a,
  1 <= length nodes <= fuel -> chunked n (nodes ++ tail) -> lt_ctx a height ->
  exists tail' a' h', l_tree_loop p fuel (length nodes) height (concat (nodes ++ tail)) seed a
     = Ok (concat (ltree_at P W seed fuel height nodes :: tail'), a') /\
     length tail' = length nodes + length tail - 1 /\
     chunked n (ltree_at P W seed fuel height nodes :: tail') /\ lt_ctx a' h'.
Proof.
  intros Hseed. induction fuel as [|fuel IH]; intros height nodes tail a Hl Hc Ha; [lia|].
  cbn [l_tree_loop ltree_at]. destruct (Nat.leb_spec (length nodes) 1) as [Hle|Hgt].
  - destruct nodes as [|x [|y nodes]]; cbn [length] in *; try lia.
    exists tail, a, height. split; [reflexivity|]. split; [lia|]. split; [exact Hc|exact Ha].
  - set (l := length nodes) in *.
    set (f := fun j => rand_hash_at P W seed height (0 + j)
                  (nth (2 * j) nodes []) (nth (2 * j + 1) nodes [])).
    match goal with |- context [forN (l / 2) 0 ?body ?s0] =>
      destruct (forN_inv (fun i '(buf, b) =>
         buf = concat (map f (seq 0 i) ++ skipn i nodes ++ tail) /\ lt_ctx b height)
         (l / 2) 0 body s0) as [[buf b] [Heq [Hbuf Hb]]] end.
    { intros j [buf b] Hj [Hbuf Hb]. cbv beta iota zeta.
      apply chunked_app in Hc. destruct Hc as [Hcn Hct].
      assert (Hch : chunked n (map f (seq 0 j) ++ skipn j nodes ++ tail)).
      { apply chunked_app. split; [apply chunked_map_seq; intros; try unfold f; apply rha_length|].
        apply chunked_app. split; [now apply chunked_skipn|exact Hct]. }
      assert (Hlen : length (map f (seq 0 j) ++ skipn j nodes ++ tail) = l + length tail).
      { rewrite !app_length, map_length, seq_length, skipn_length. fold l. lia. }
      assert (Hnth : forall k, j <= k -> k < l -> nth k (map f (seq 0 j) ++ skipn j nodes ++ tail) [] = nth k nodes []).
      { intros k Hk1 Hk2. rewrite app_nth2 by (rewrite map_length, seq_length; lia).
        rewrite map_length, seq_length. rewrite app_nth1 by (rewrite skipn_length; fold l; lia).
        rewrite <- (firstn_skipn j nodes) at 2. rewrite app_nth2 by (rewrite firstn_length; fold l; lia).
        rewrite firstn_length. f_equal. fold l. lia. }
      rewrite Hbuf. rewrite (rd_chunk2 n) by (assumption || lia). rewrite bind_ok.
      rewrite !Hnth by lia.
      destruct Hb as (Hw & H5).
      rewrite (thash_h_at _ _ seed _ height j);
        [|apply chunked_nth; [exact Hcn|fold l; lia]|apply chunked_nth; [exact Hcn|fold l; lia]|exact Hseed|exact Hw|exact H5|reflexivity].
      rewrite bind_ok. rewrite (wr_chunk0 n); [|exact Hch|lia|apply rha_length].
      rewrite bind_ok. eexists. split; [reflexivity|]. split.
      - f_equal. rewrite (skipn_nth [] nodes j) by (fold l; lia). cbn [app].
        rewrite upd_app_mid by (rewrite map_length, seq_length; reflexivity).
        rewrite map_seq_S, <- app_assoc. cbn [app]. f_equal. f_equal. unfold f. cbn [Nat.add].
        replace (j * 2) with (2 * j) by lia. replace (S (2 * j)) with (2 * j + 1) by lia. reflexivity.
      - split; [exact Hw|exact H5]. }
    { split; [reflexivity|exact Ha]. }
    rewrite Heq, bind_ok. cbn [Nat.add] in Hbuf.
    apply chunked_app in Hc. destruct Hc as [Hcn Hct].
    pose proof (lta_map P W seed height l nodes 0 (le_n _)) as Hlm. fold l f in Hlm.
    assert (Hl' : length (ltree_level_at P W seed height 0 nodes) = (l + 1) / 2) by apply lta_length.
    assert (Hcl : chunked n (ltree_level_at P W seed height 0 nodes)) by (now apply lta_chunked).
    set (lvl := ltree_level_at P W seed height 0 nodes) in *.
    assert (Hb' : lt_ctx (set_tree_height b (N.of_nat (S height)))(S height)).
    { destruct Hb as (Hw & H5). split; [exact Hw|reflexivity]. }
    destruct (Nat.odd l) eqn:Hodd.
    + assert (Hlo : l = 2 * (l / 2) + 1).
      { pose proof (Nat.div2_odd l) as Hd. rewrite Nat.div2_div, Hodd in Hd. cbn [Nat.b2n] in Hd. exact Hd. }
      assert (Hch : chunked n (map f (seq 0 (l / 2)) ++ skipn (l / 2) nodes ++ tail)).
      { apply chunked_app. split; [apply chunked_map_seq; intros; try unfold f; apply rha_length|].
        apply chunked_app. split; [now apply chunked_skipn|exact Hct]. }
      assert (Hlen : length (map f (seq 0 (l / 2)) ++ skipn (l / 2) nodes ++ tail) = l + length tail).
      { rewrite !app_length, map_length, seq_length, skipn_length. fold l. lia. }
      rewrite Hbuf. rewrite (rd_chunk0 n) by (assumption || lia). rewrite bind_ok.
      assert (Hnl : nth (l - 1) (map f (seq 0 (l / 2)) ++ skipn (l / 2) nodes ++ tail) [] = nth (l - 1) nodes []).
      { rewrite app_nth2 by (rewrite map_length, seq_length; lia).
        rewrite map_length, seq_length. rewrite app_nth1 by (rewrite skipn_length; fold l; lia).
        rewrite <- (firstn_skipn (l / 2) nodes) at 2. rewrite app_nth2 by (rewrite firstn_length; fold l; lia).
        rewrite firstn_length. f_equal. fold l. lia. }
      rewrite Hnl. rewrite (wr_chunk0 n); [|exact Hch|lia|apply chunked_nth; [exact Hcn|fold l; lia]].
      rewrite !bind_ok.
      assert (Hdec : upd (map f (seq 0 (l / 2)) ++ skipn (l / 2) nodes ++ tail) (l / 2) (nth (l - 1) nodes [])
                   = lvl ++ (skipn (S (l / 2)) nodes ++ tail)).
      { rewrite (skipn_nth [] nodes (l / 2)) by (fold l; lia). cbn [app].
        rewrite upd_app_mid by (rewrite map_length, seq_length; reflexivity).
        rewrite Hlm, <- app_assoc. reflexivity. }
      rewrite Hdec.
      replace (l / 2 + 1) with (length lvl) by lia.
      destruct (IH (S height) lvl (skipn (S (l / 2)) nodes ++ tail) (set_tree_height b (N.of_nat (S height)))) as (tail' & a' & h' & Heq2 & Hlt & Hct' & Ha').
      * rewrite Hl'. lia.
      * apply chunked_app. split; [exact Hcl|]. apply chunked_app. split; [now apply chunked_skipn|exact Hct].
      * exact Hb'.
      * exists tail', a', h'. split; [exact Heq2|]. split; [|split; assumption].
        rewrite Hlt, Hl', app_length, skipn_length. fold l. lia.
    + assert (Hlo : l = 2 * (l / 2)).
      { pose proof (Nat.div2_odd l) as Hd. rewrite Nat.div2_div, Hodd in Hd. cbn [Nat.b2n] in Hd. lia. }
      rewrite bind_ok. rewrite app_nil_r in Hlm. rewrite Hbuf, <- Hlm.
      assert (Hl2 : length lvl = l / 2) by lia.
      destruct (IH (S height) lvl (skipn (l / 2) nodes ++ tail) (set_tree_height b (N.of_nat (S height)))) as (tail' & a' & h' & Heq2 & Hlt & Hct' & Ha').
      * rewrite Hl'. lia.
      * apply chunked_app. split; [exact Hcl|]. apply chunked_app. split; [now apply chunked_skipn|exact Hct].
      * exact Hb'.
      * exists tail', a', h'. split; [rewrite <- Hl2; rewrite Hl2 in Heq2 |- *; exact Heq2|]. split; [|split; assumption].
        rewrite Hlt, Hl', app_length, skipn_length. fold l. lia.
Qed.

Lemma l_tree_at seed nodes a : length seed = n -> chunked n nodes -> length nodes = wots_len p ->
  pre a = W ->
  exists a' h', l_tree p (concat nodes) seed a = Ok (ltree_at P W seed (sp_len P) 0 nodes, a') /\ lt_ctx a' h'.
Proof.
  intros Hs Hc Hl Hw. unfold l_tree. cbv zeta. pose proof (len_pos p Hp) as [Hl1 Hl2].
  assert (Hlen : wots_len p = wots_len1 p + wots_len2 p) by exact (po_len p Hp).
  destruct (l_tree_loop_at seed Hs (wots_len p) 0 nodes [] (set_tree_height a 0))
    as (tail' & a' & h' & Heq & Hlt & Hct & Ha').
  - lia.
  - now rewrite app_nil_r.
  - split; [exact Hw|reflexivity].
  - rewrite app_nil_r, Hl in Heq. rewrite Heq, bind_ok. exists a', h'. split; [|exact Ha'].
    rewrite (len_P p Hf Hp) in *. cbn [concat]. inversion Hct as [|? ? Hx _]; subst.
    rewrite rd_ok by (rewrite app_length; lia). rewrite bind_ok. cbn [skipn].
    rewrite firstn_app, Hx, Nat.sub_diag. cbn [firstn]. rewrite app_nil_r, firstn_all2 by lia. reflexivity.
Qed.

Lemma lta_n seed k : forall height nodes, chunked n nodes -> 1 <= length nodes ->
  length (ltree_at P W seed k height nodes) = n.
Proof.
  induction k as [|k IH]; intros height nodes Hc Hl; cbn [ltree_at].
  - destruct nodes; [cbn in Hl; lia|]. now inversion Hc.
  - destruct (Nat.leb_spec (length nodes) 1).
    + destruct nodes; [cbn in Hl; lia|]. now inversion Hc.
    + apply IH; [now apply lta_chunked|]. rewrite lta_length. lia.
Qed.
End Refine.
