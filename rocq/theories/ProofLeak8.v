(** The chains of a signature of the reference core: how long each is, in the terms of RFC 8391. *)
From Verif Require Import Base Lib SpecRfc ModelUtils ModelParams ModelHash ModelWots ModelCommons ModelCore
  ProofUtils ProofHash ProofWots ProofCommons ProofTree ProofCore SpecParams SpecApi ModelLeak SpecLeak ProofLeak.

Lemma ch_app t u : chains (t ++ u) = chains t ++ chains u.
Proof. induction t as [|e t IH]; [reflexivity|]. destruct e; cbn; rewrite IH; reflexivity. Qed.
Definition nc {A} (c : leak A) : Prop := chains (trace c) = [].
Lemma nc_bind {A B} (c : leak A) (k : A -> leak B) : nc c -> (forall x, nc (k x)) -> nc (lbind c k).
Proof. intros H Hk. unfold nc, lbind in *. destruct (outcome c) as [a| |]; cbn [trace]; [rewrite ch_app, H; apply Hk|exact H|exact H]. Qed.
Lemma nc_silent {A} (c : res A) : nc (silent c).
Proof. reflexivity. Qed.
Lemma nc_if {A} b (c d : leak A) : nc c -> nc d -> nc (lif b c d).
Proof. intros H1 H2. unfold nc, lif. cbn. destruct b; assumption. Qed.
Lemma nc_for {S} (body : nat -> S -> leak S) : (forall i s, nc (body i s)) -> forall k i s, nc (lforN k i body s).
Proof. intros Hb. induction k as [|k IH]; intros i s; cbn [lforN]; [reflexivity|]. apply nc_bind; [exact (Hb i s)|]. intros x. apply IH. Qed.
Ltac nc1 := match goal with
  | |- nc (lbind _ _) => apply nc_bind; [|intros ?]
  | |- nc (lif _ _ _) => apply nc_if
  | |- nc (lforN _ _ _ _) => apply nc_for; intros ? ?
  | |- nc (rd_l _ _ _) => reflexivity
  | |- nc (wr_l _ _ _) => reflexivity
  | |- nc (rdc_l _ _) => reflexivity
  | |- nc (wrc_l _ _ _) => reflexivity
  | |- nc (core_hash_l _ _) => reflexivity
  | |- nc (silent _) => reflexivity
  | |- nc (mkLeak _ _) => reflexivity
  | |- nc (let _ := _ in _) => cbv zeta
  | |- nc (match ?x with _ => _ end) => destruct x
  end.
Ltac ncs := repeat nc1.

Section Nc.
Context {E : Env} (p : xmss_params).
Lemma nc_prf i k : nc (prf_l p i k). Proof. unfold prf_l. ncs. Qed.
Lemma nc_kg i k : nc (prf_keygen_l p i k). Proof. unfold prf_keygen_l. ncs. Qed.
Lemma nc_th i s a : nc (thash_h_l p i s a). Proof. unfold thash_h_l. cbv zeta. ncs; apply nc_prf. Qed.
Lemma nc_tf i s a : nc (thash_f_l p i s a). Proof. unfold thash_f_l. cbv zeta. ncs; apply nc_prf. Qed.
Lemma nc_hm R rt ix b o l : (forall x, nc (R x)) -> nc (hash_message_l p R rt ix b o l). Proof. intros HR. unfold hash_message_l. ncs. apply HR. Qed.
Lemma nc_ex i s a : nc (expand_seed_l p i s a). Proof. unfold expand_seed_l. cbv zeta. ncs. apply nc_kg. Qed.
Lemma nc_cl k : forall i o s a, nc (gen_chain_loop_l p k i o s a).
Proof. induction k as [|k IH]; intros i o s a; cbn [gen_chain_loop_l]; ncs; [apply nc_tf|apply IH]. Qed.
Lemma nc_gc x i k s a : nc (gen_chain_l p x i k s a). Proof. unfold gen_chain_l. ncs. apply nc_cl. Qed.
Lemma nc_pk i s a : nc (wots_pkgen_l p i s a). Proof. unfold wots_pkgen_l. ncs; [apply nc_ex|apply nc_gc]. Qed.
Lemma nc_ltl g : forall l h w s a, nc (l_tree_loop_l p g l h w s a).
Proof. induction g as [|g IH]; intros l h w s a; cbn [l_tree_loop_l]; ncs; try apply nc_th. apply IH. Qed.
Lemma nc_lt w s a : nc (l_tree_l p w s a). Proof. unfold l_tree_l. ncs. apply nc_ltl. Qed.
Lemma nc_lf i s la oa : nc (gen_leaf_wots_l p i s la oa). Proof. unfold gen_leaf_wots_l. ncs; [apply nc_pk|apply nc_lt]. Qed.
Lemma nc_wh g : forall idx li s st hs o ab ao na, nc (treehash_while_l p g idx li s st hs o ab ao na).
Proof. induction g as [|g IH]; intros; cbn [treehash_while_l]; ncs; try apply nc_th. apply IH. Qed.
Lemma nc_tr ab ao i s li sub : nc (treehash_l p ab ao i s li sub). Proof. unfold treehash_l. ncs; [apply nc_lf|apply nc_wh]. Qed.
Lemma nc_bw k : forall i ix t b, nc (base_w_loop_l p k i ix t b).
Proof. induction k as [|k IH]; intros; cbn [base_w_loop_l]; ncs. apply IH. Qed.
Lemma nc_cs l : nc (wots_checksum_l p l). Proof. unfold wots_checksum_l. ncs. apply nc_bw. Qed.
Lemma nc_len m : nc (chain_lengths_l p m). Proof. unfold chain_lengths_l. ncs; [apply nc_bw|apply nc_cs]. Qed.
End Nc.

Lemma ch_bind {A B} (c : leak A) (k : A -> leak B) y l1 l2 : outcome c = Ok y -> chains (trace c) = l1 -> chains (trace (k y)) = l2 -> chains (trace (lbind c k)) = l1 ++ l2.
Proof. intros H H1 H2. unfold lbind. rewrite H. cbn [trace]. now rewrite ch_app, H1, H2. Qed.
Lemma ch_skip {A B} (c : leak A) (k : A -> leak B) y l : outcome c = Ok y -> nc c -> chains (trace (k y)) = l -> chains (trace (lbind c k)) = l.
Proof. intros H H1 H2. exact (ch_bind c k y [] l H H1 H2). Qed.
Lemma bind_inv {A B} (c : leak A) (k : A -> leak B) z : outcome (lbind c k) = Ok z -> exists y, outcome c = Ok y /\ outcome (k y) = Ok z.
Proof. unfold lbind. destruct (outcome c) as [y| |]; cbn [outcome]; intros H; try discriminate. eauto. Qed.
Lemma bind_tr {A B} (c : leak A) (k : A -> leak B) y : outcome c = Ok y -> trace (lbind c k) = trace c ++ trace (k y).
Proof. intros H. unfold lbind. now rewrite H. Qed.
Lemma bind_oc {A B} (c : leak A) (k : A -> leak B) y : outcome c = Ok y -> outcome (lbind c k) = outcome (k y).
Proof. intros H. unfold lbind. now rewrite H. Qed.

Section Chain.
Context {E : Env} (p : xmss_params) (Hf : bytes -> bytes).
Hypothesis Hp : params_ok p.
Hypothesis HH : hash_total p Hf.
Notation P := (sp_of p Hf).
Notation n := (p_n p).
Lemma rd_l_ok b o l : o + l <= length b -> outcome (rd_l b o l) = Ok (firstn l (skipn o b)).
Proof. intros H. cbn [rd_l outcome]. now apply rd_ok. Qed.
Lemma prf_tr i k : length i = 32 -> n <= length k -> trace (prf_l p i k) = [Access 0 n; Access 0 32; Hash (padding_len p + n + 32)] /\
  exists y, outcome (prf_l p i k) = Ok y /\ length y = n.
Proof.
  intros Hi Hk. unfold prf_l. rewrite (bind_tr _ _ _ (rd_l_ok k 0 n ltac:(lia))), (bind_oc _ _ _ (rd_l_ok k 0 n ltac:(lia))).
  rewrite (bind_tr _ _ _ (rd_l_ok i 0 32 ltac:(lia))), (bind_oc _ _ _ (rd_l_ok i 0 32 ltac:(lia))). split.
  - cbn [rd_l trace core_hash_l app]. do 4 f_equal. rewrite !app_length, !firstn_length, !skipn_length, ull_to_bytes_spec, toByte_length. lia.
  - cbn [core_hash_l outcome]. match goal with |- context [core_hash p ?x] => destruct (HH x) as (-> & Hl & _) end. eauto.
Qed.
Notation step := (Branch true :: [Access 0 n; Access 0 32; Hash (padding_len p + n + 32)] ++ [Access 0 n; Access 0 32; Hash (padding_len p + n + 32)] ++ [Access 0 n; Hash (padding_len p + 2 * n)]).
Lemma tf_tr i s a : length i = n -> n <= length s -> trace (thash_f_l p i s a) = tl step /\ exists y b, outcome (thash_f_l p i s a) = Ok (y, b) /\ length y = n.
Proof.
  intros Hi Hs. unfold thash_f_l. cbv zeta.
  match goal with |- context [prf_l p (addr_to_bytes ?x) s] => destruct (prf_tr (addr_to_bytes x) s (addr_to_bytes_length _) Hs) as (T1 & y1 & O1 & L1) end.
  rewrite (bind_tr _ _ _ O1), (bind_oc _ _ _ O1), T1.
  match goal with |- context [lbind (prf_l p (addr_to_bytes ?x) s)] => destruct (prf_tr (addr_to_bytes x) s (addr_to_bytes_length _) Hs) as (T2 & y2 & O2 & L2) end.
  rewrite (bind_tr _ _ _ O2), (bind_oc _ _ _ O2), T2.
  rewrite (bind_tr _ _ _ (rd_l_ok i 0 n ltac:(lia))), (bind_oc _ _ _ (rd_l_ok i 0 n ltac:(lia))).
  match goal with |- context [core_hash_l p ?x] => pose proof (HH x) as (O3 & L3 & _); assert (Lx : length x = padding_len p + 2 * n) end.
  { unfold xor_bytes. rewrite !app_length, map_length, combine_length, firstn_length, skipn_length, ull_to_bytes_spec, toByte_length. lia. }
  rewrite (bind_tr (core_hash_l p _) _ _ O3), (bind_oc (core_hash_l p _) _ _ O3). split.
  - cbn [core_hash_l trace rd_l silent app tl]. rewrite Lx. reflexivity.
  - cbn [silent outcome]. eauto.
Qed.
Lemma cl_tr k : forall i o s a, i + k <= wots_w p -> length o = n -> n <= length s -> trace (gen_chain_loop_l p k i o s a) = concat (repeat step k).
Proof.
  induction k as [|k IH]; intros i o s a Hk Ho Hs; cbn [gen_chain_loop_l]; [reflexivity|]. destruct (Nat.ltb_spec i (wots_w p)) as [_|?]; [|lia].
  unfold lif. cbn [trace]. cbv zeta. destruct (tf_tr o s (set_hash_addr a (N.of_nat i)) Ho Hs) as (T & y & b & O & L). rewrite (bind_tr _ _ _ O), T. cbn [repeat concat app tl].
  rewrite (IH (Datatypes.S i) y s b) by (lia || assumption). reflexivity.
Qed.
Lemma gc_tr k x s a : k < wots_w p -> n <= length x -> n <= length s -> trace (gen_chain_l p x 0 k s a) = chain_trace P k.
Proof.
  intros Hk Hx Hs. unfold gen_chain_l. rewrite (bind_tr _ _ _ (rd_l_ok x 0 n ltac:(lia))). cbn [rd_l trace app].
  rewrite cl_tr; [reflexivity|lia|rewrite firstn_length, skipn_length; lia|exact Hs].
Qed.
Lemma rd_out b o l y : outcome (rd_l b o l) = Ok y -> length y = l.
Proof. cbn [rd_l outcome]. unfold rd. destruct (Nat.leb_spec (o + l) (length b)); [|discriminate]. intros H1. injection H1 as <-. rewrite firstn_length, skipn_length. lia. Qed.
Lemma ws_ch_of m' m i s a y : chain_lengths p m' = Ok (wots_digits P m) -> n <= length s -> outcome (wots_sign_l p m' i s a) = Ok y ->
  chains (trace (wots_sign_l p m' i s a)) = map (chain_trace P) (wots_digits P m).
Proof.
  intros Hcl Hs. unfold wots_sign_l. intros H.
  assert (Hl : outcome (chain_lengths_l p m') = Ok (wots_digits P m)) by (rewrite lw_lengths; exact Hcl).
  apply (ch_skip _ _ _ _ Hl (nc_len p m')). rewrite (bind_oc _ _ _ Hl) in H. cbv beta in H |- *.
  apply bind_inv in H. destruct H as ([sg a1] & H1 & H2). apply (ch_skip _ _ _ _ H1 (nc_ex p i s a)). cbv beta iota in H2 |- *.
  pose proof (wots_digits_length p Hf Hp m) as HL.
  match type of H2 with outcome (lforN _ _ ?b _) = _ => set (body := b) in * end.
  assert (G : forall k j st z, j + k <= wots_len p -> outcome (lforN k j body st) = Ok z -> chains (trace (lforN k j body st)) = map (chain_trace P) (firstn k (skipn j (wots_digits P m)))).
  { clear H2. induction k as [|k IH]; intros j st z Hj Hz; [reflexivity|]. cbn [lforN] in Hz |- *. apply bind_inv in Hz. destruct Hz as (st' & Hz1 & Hz2). cbn [outcome] in Hz1.
    assert (Hd : nth_error (wots_digits P m) j = Some (nth j (wots_digits P m) 0)) by (apply nth_error_nth'; lia).
    assert (Es : skipn j (wots_digits P m) = nth j (wots_digits P m) 0 :: skipn (Datatypes.S j) (wots_digits P m)) by (apply skipn_nth; lia).
    rewrite Es. cbn [firstn map]. eapply (ch_bind (mkLeak _ _) _ st' [_] _ Hz1); [|eapply IH; [lia|exact Hz2]]. cbn [trace chains].
    subst body. destruct st as [sg0 a0]. cbv zeta in Hz1 |- *.
    assert (Hr : outcome (rdc_l (wots_digits P m) j) = Ok (nth j (wots_digits P m) 0)) by (cbn [rdc_l outcome]; unfold rdc; now rewrite Hd).
    apply (ch_skip _ _ _ _ Hr eq_refl). rewrite (bind_oc _ _ _ Hr) in Hz1. cbv beta in Hz1 |- *.
    apply bind_inv in Hz1. destruct Hz1 as (x & Hz1 & Hz3). apply (ch_skip _ _ _ _ Hz1 eq_refl). cbv beta in Hz3 |- *.
    apply bind_inv in Hz3. destruct Hz3 as ([y1 b1] & Hz3 & Hz4). pose proof (rd_out _ _ _ _ Hz1) as Hx. change [chain_trace P (nth j (wots_digits P m) 0)] with ([chain_trace P (nth j (wots_digits P m) 0)] ++ []).
    apply (ch_bind _ _ _ _ _ Hz3).
    - cbn [sign_chain trace chains]. f_equal. apply gc_tr; [|lia|exact Hs]. pose proof (wots_digits_lt p Hf Hp m j). pose proof (w_pos p Hp). lia.
    - cbv beta iota in Hz4 |- *. apply bind_inv in Hz4. destruct Hz4 as (sg1 & Hz4 & _). apply (ch_skip _ _ _ _ Hz4 eq_refl). reflexivity. }
  rewrite (G (wots_len p) 0 _ y ltac:(lia) H2). cbn [skipn]. rewrite firstn_all2 by lia. reflexivity.
Qed.
Lemma ws_ch m i s a y : length m = n -> bytes_ok m -> n <= length s -> outcome (wots_sign_l p m i s a) = Ok y ->
  chains (trace (wots_sign_l p m i s a)) = map (chain_trace P) (wots_digits P m).
Proof. intros Hm Hb. apply ws_ch_of. exact (chain_lengths_spec p Hf Hp m Hb Hm). Qed.
End Chain.
