(** Each leaf of C71 is leaf_hashes hash calls of C72: the two counts of the same run of the fast core. *)
From Coq Require Import ZArith.
From Verif Require Import Base Lib SpecRfc SpecFips202 SpecParams SpecApi SpecComp SpecFast SpecCost SpecWork ModelUtils ModelParams ModelHash ModelWots ModelCommons ModelCore ModelCoreFast ModelXmss.
From Verif Require Import ProofUtils ProofHash ProofCore ProofParams ProofApi ProofHistory ProofMain.
From Verif Require Import ProofSched ProofBds1 ProofFast1 ProofFast2 ProofFast3 ProofFast4 ProofFast5 ProofFast6 ProofFast7 ProofMt1 ProofMt2 ProofMt4 ProofMt5 ProofMt6 ProofMt7.
From Verif Require Import ModelCost ProofCost ProofCost2 ProofCost3 ProofCost4 ProofCost5 ModelWork ProofWork ProofWork2 ProofWork3 ProofWork5 ModelWorkFast ProofWorkFast ProofWorkFast2 ProofWorkFast3.

(** [dom k c w]: the same outcome; if there is one, at least [k] units in [w] for each of [c] *)
Definition dom {A} (k : N) (c w : cost A) : Prop := out w = out c /\ forall x, out c = Ok x -> (k * count c <= count w)%N.
Lemma dom_free {A} k (r : res A) (w : cost A) : out w = r -> dom k (free r) w.
Proof. intros Hw. split; [exact Hw|]. intros x _. cbn [count free]. rewrite N.mul_0_r. apply N.le_0_l. Qed.
Lemma dom_bind {A B} k (c w : cost A) (f g : A -> cost B) : dom k c w -> (forall x, dom k (f x) (g x)) -> dom k (cbind c f) (cbind w g).
Proof.
  intros [H1 H2] Hf. unfold cbind. rewrite H1. destruct (out c) as [x| |] eqn:Ec; [|split; [reflexivity|discriminate]..].
  destruct (Hf x) as [G1 G2]. split; [exact G1|]. cbn [out count]. intros y Hy. specialize (H2 x eq_refl). specialize (G2 y Hy). rewrite N.mul_add_distr_l. lia.
Qed.
Lemma dom_for {S} k n : forall i (f g : nat -> S -> cost S) s, (forall i s, dom k (f i s) (g i s)) -> dom k (cforN n i f s) (cforN n i g s).
Proof. induction n as [|n IH]; intros i f g s Hf; cbn [cforN]; [now apply dom_free|]. apply dom_bind; [apply Hf|]. intros x. now apply IH. Qed.
Lemma dom_loop_pos {S} k n : forall (f g : S -> cost (S * bool)) s, (forall s, dom k (f s) (g s)) -> dom k (cloop_pos n f s) (cloop_pos n g s).
Proof.
  induction n as [q IH|q IH|]; intros f g s Hf; cbn [cloop_pos]; [| |apply Hf].
  - apply dom_bind; [apply Hf|]. intros [s1 [|]]; [now apply dom_free|]. apply dom_bind; [now apply IH|]. intros [s2 [|]]; [now apply dom_free|now apply IH].
  - apply dom_bind; [now apply IH|]. intros [s2 [|]]; [now apply dom_free|now apply IH].
Qed.
Lemma dom_loop {S} k n (f g : S -> cost (S * bool)) s : (forall s, dom k (f s) (g s)) -> dom k (cloopN n f s) (cloopN n g s).
Proof. intros Hf. destruct n as [|q]; [now apply dom_free|now apply dom_loop_pos]. Qed.

Ltac dm1 := match goal with
  | |- dom _ (cbind _ _) (cbind _ _) => apply dom_bind; [|intro]
  | |- dom _ (cforN _ _ _ _) (cforN _ _ _ _) => apply dom_for; do 2 intro
  | |- dom _ (cloopN _ _ _) (cloopN _ _ _) => apply dom_loop; intro
  | |- dom _ (free _) (free _) => apply dom_free; reflexivity
  | |- dom _ (free (thash_h _ _ _ _)) _ => apply dom_free, ew_thash_h
  | |- dom _ (free (prf _ _ _)) _ => apply dom_free, ew_prf
  | |- dom _ (free (hash_message _ _ _ _ _ _ _)) _ => apply dom_free, ew_hash_message
  | |- dom _ (free (wots_sign _ _ _ _ _)) _ => apply dom_free, ew_wsign
  | |- dom _ (free (treehash_init_while _ _ _ _ _ _ _ _ _ _)) _ => apply dom_free, fw_init_while
  | |- dom _ (free (treehash_update_while _ _ _ _ _ _ _ _ _)) _ => apply dom_free, fw_update_while
  | |- dom _ (free (bds_state_update_while _ _ _ _ _ _)) _ => apply dom_free, fw_state_while
  | |- dom _ (if ?b then _ else _) _ => destruct b
  | |- dom _ (match ?x with _ => _ end) _ => destruct x
  end.
Ltac dm := cbv zeta; repeat (dm1; cbv beta zeta).

Section WithEnv.
Context {E : Env}.
Lemma dm_leaf p a b c d : dom (leaf_work p) (gen_leaf_wots_c p a b c d) (gen_leaf_wots_w p a b c d).
Proof.
  split; [apply ew_leaf|]. unfold gen_leaf_wots_c. cbn [out count]. intros x Hx. destruct (w_leaf p a b c d) as [_ Hw].
  rewrite (Hw x) by (rewrite ew_leaf; exact Hx). lia.
Qed.
Lemma dm_init p h s a b c : dom (leaf_work p) (treehash_init_c p h s a b c) (treehash_init_w p h s a b c).
Proof. unfold treehash_init_c, treehash_init_w. dm. apply dm_leaf. Qed.
Lemma dm_update p j s a b c : dom (leaf_work p) (treehash_update_c p j s a b c) (treehash_update_w p j s a b c).
Proof. unfold treehash_update_c, treehash_update_w. dm. apply dm_leaf. Qed.
Lemma dm_updates p s u a b c : dom (leaf_work p) (bds_treehash_update_c p s u a b c) (bds_treehash_update_w p s u a b c).
Proof. unfold bds_treehash_update_c, bds_treehash_update_w. dm. apply dm_update. Qed.
Lemma dm_state p s a b c : dom (leaf_work p) (bds_state_update_c p s a b c) (bds_state_update_w p s a b c).
Proof. unfold bds_state_update_c, bds_state_update_w. dm. apply dm_leaf. Qed.
Lemma dm_round p s l a b c : dom (leaf_work p) (bds_round_c p s l a b c) (bds_round_w p s l a b c).
Proof. unfold bds_round_c, bds_round_w. dm. apply dm_leaf. Qed.
Lemma dm_body p idx sk ss ws sm m : dom (leaf_work p) (fast_sign_body_c p idx sk ss ws sm m) (fast_sign_body_w p idx sk ss ws sm m).
Proof. unfold fast_sign_body_c, fast_sign_body_w. dm; [apply dm_round|apply dm_updates]. Qed.
Lemma dm_sign p sk sm smlen m : dom (leaf_work p) (fast_xmss_core_sign_c p sk sm smlen m) (fast_xmss_core_sign_w p sk sm smlen m).
Proof. unfold fast_xmss_core_sign_c, fast_xmss_core_sign_w. dm; apply dm_body. Qed.
Lemma dm_layer p idx a b i v : dom (leaf_work p) (mt_layer_step_c p idx a b i v) (mt_layer_step_w p idx a b i v).
Proof. unfold mt_layer_step_c, mt_layer_step_w. dm; [apply dm_round|apply dm_updates|apply dm_state]. Qed.
Lemma dm_mt_body p idx sk ss ws sm m : dom (leaf_work p) (fast_mt_sign_body_c p idx sk ss ws sm m) (fast_mt_sign_body_w p idx sk ss ws sm m).
Proof. unfold fast_mt_sign_body_c, fast_mt_sign_body_w. dm; [apply dm_state|apply dm_layer]. Qed.
Lemma dm_mt_sign p sk sm smlen m : dom (leaf_work p) (fast_xmssmt_core_sign_c p sk sm smlen m) (fast_xmssmt_core_sign_w p sk sm smlen m).
Proof. unfold fast_xmssmt_core_sign_c, fast_xmssmt_core_sign_w. dm; apply dm_mt_body. Qed.
(** refused calls hash nothing *)
Definition zr (c : cost sign_out) : Prop := forall o, out c = Ok o -> so_rc o = (-2)%Z -> count c = 0%N.
Lemma zr_step {A} (a : res A) (f : A -> cost sign_out) : (forall x, a = Ok x -> zr (f x)) -> zr (cbind (free a) f).
Proof. intros Hf. unfold zr, cbind. cbn [out free]. destruct a as [x| |]; [|discriminate..]. cbn [out count free]. intros o Ho Hrc. rewrite (Hf x eq_refl o Ho Hrc). reflexivity. Qed.
Lemma zr_free a : zr (free a).
Proof. intros o _ _. reflexivity. Qed.
Lemma body_rc p idx sk ss ws sm m o : fast_sign_body p idx sk ss ws sm m = Ok o -> so_rc o = 0%Z.
Proof.
  unfold fast_sign_body. cbv zeta. intros H.
  repeat match type of H with
  | (if ?b then _ else _) = _ => destruct b; [try discriminate|]
  | bind _ _ = _ => let x := fresh "x" in let H1 := fresh "H1" in apply bind_inv in H as (x & H1 & H); clear H1
  | (match ?x with _ => _ end) = _ => destruct x
  end; congruence || (injection H as <-; reflexivity).
Qed.
Lemma mt_body_rc p idx sk ss ws sm m o : fast_mt_sign_body p idx sk ss ws sm m = Ok o -> so_rc o = 0%Z.
Proof.
  unfold fast_mt_sign_body. cbv zeta. intros H.
  repeat match type of H with
  | (if ?b then _ else _) = _ => destruct b; [try discriminate|]
  | bind _ _ = _ => let x := fresh "x" in let H1 := fresh "H1" in apply bind_inv in H as (x & H1 & H); clear H1
  | (match ?x with _ => _ end) = _ => destruct x
  end; congruence || (injection H as <-; reflexivity).
Qed.
Ltac zr1 := match goal with
  | |- zr (cbind (free _) _) => apply zr_step; intros ? ?
  | |- zr (free _) => apply zr_free
  | |- zr (fast_sign_body_w _ _ _ _ _ _ _) => intros o Ho Hrc; rewrite fw_body in Ho; apply body_rc in Ho; congruence
  | |- zr (fast_mt_sign_body_w _ _ _ _ _ _ _) => intros o Ho Hrc; rewrite fw_mt_body in Ho; apply mt_body_rc in Ho; congruence
  | |- zr (if ?b then _ else _) => destruct b
  | |- zr (match ?x with _ => _ end) => destruct x
  end.
Lemma xmss_refused p sk sm smlen m : zr (fast_xmss_core_sign_w p sk sm smlen m).
Proof. unfold fast_xmss_core_sign_w. cbv zeta. repeat zr1. Qed.
Lemma mt_refused p sk sm smlen m : zr (fast_xmssmt_core_sign_w p sk sm smlen m).
Proof. unfold fast_xmssmt_core_sign_w. cbv zeta. repeat zr1. Qed.
Lemma dm_wrap k parse skb f g sk sm smlen m oid p : oid_of_bytes sk = Ok oid -> parse skb uninit_params oid = Ok (Some p) ->
  (forall sk sm smlen m, dom k (f p sk sm smlen m) (g p sk sm smlen m)) ->
  dom k (sign_wrapper_c parse skb f sk sm smlen m) (sign_wrapper_c parse skb g sk sm smlen m).
Proof.
  intros Ho Hp Hfg. unfold sign_wrapper_c. rewrite Ho, !cbind_ok, Hp, !cbind_ok. apply dom_bind; [apply Hfg|]. intros o. now apply dom_free.
Qed.
End WithEnv.

Section Row.
Context {E : Env}.
Variable mt : bool.
Variable r : row.
Hypothesis Hr : In r (rows mt).
Notation pf := (row_params r (sk_fast r)).

Lemma row_pkgen skb : pkgen_work (row_params r skb) = (chains r + chain_steps r)%N.
Proof. destruct (row_wots mt r Hr skb) as [H1 H2]. unfold pkgen_work, chain_steps. rewrite H1, H2. change (N.of_nat (16 - 1)) with 15%N. lia. Qed.
Lemma row_unit skb : unit_work (row_params r skb) = step_hashes r.
Proof. unfold unit_work, step_hashes. now rewrite (row_leaf mt r Hr), row_thh. Qed.
Lemma row_few sk b i : key_of r (fast_size r) sk -> rd (skipn XMSS_OID_LEN sk) 0 (ModelParams.index_bytes pf) = Ok b -> bytes_to_ull b = Ok i ->
  r_d r <= r_h r / r_d r / 2 + 1 \/ ~ many_trees_end r (sk_index r sk) -> few_ends pf i.
Proof.
  intros Hk Hb Hi Hfew. pose proof (row_upd r) as Ru. pose proof (po_h pf (fp_ok mt r Hr)) as Ph.
  assert (Hix : i = sk_index r sk).
  { destruct Hk as (L & _ & Bk). unfold sk_index. rewrite (fp_ib r) in Hb.
    assert (Lsz : idx_size r <= fast_size r) by (rewrite (fast_size_eq mt r Hr); clear; lia).
    assert (Hi8 : idx_size r <= 8) by (rewrite <- (fp_ib r (E := E)); apply (po_ib_le pf (fp_ok mt r Hr))).
    rewrite rd_ok in Hb by (cbn [Nat.add]; rewrite skipn_length; unfold XMSS_OID_LEN; clear - L Lsz; lia).
    assert (Eb : b = firstn (idx_size r) (skipn 4 sk)) by (change (Ok (firstn (idx_size r) (skipn 4 sk)) = Ok b) in Hb; congruence).
    rewrite bytes_to_ull_spec in Hi; [congruence| |].
    - rewrite Eb, firstn_length. clear - Hi8; lia.
    - rewrite Eb. apply bytes_ok_firstn, bytes_ok_skipn. exact Bk. }
  subst i. destruct Hfew as [Z|Z]; [apply few_by_depth; [exact Ph|rewrite row_dd, Ru; clear - Z; lia]|].
  apply few_by_index. intros Hz. apply Z. unfold many_trees_end. rewrite <- Hz. f_equal. f_equal. rewrite Ru, (fp_th r). unfold sp_th. cbn [sp_h sp_d row_sp]. clear. lia.
Qed.
Lemma fast_sign_hashes_max sk sm smlen m : key_of r (fast_size r) sk ->
  mt = false \/ r_d r <= r_h r / r_d r / 2 + 1 \/ ~ many_trees_end r (sk_index r sk) ->
  (hashes (fast_sign_work mt sk sm smlen m) <= fast_sign_hashes mt r)%N.
Proof.
  intros Hk Hfew.
  assert (Hc : runs (fast_sign_work mt sk sm smlen m) (fast_sign_hashes mt r) (fun _ _ => True)); [|exact (proj1 Hc)].
  apply (sw_runs _ _ _ _ _ _ _ _ (r_oid r) pf _ (fun _ _ => True) (key_oid mt r Hr _ _ Hk) (parse_accept_fast mt r uninit_params Hr) eq_refl).
  pose proof (row_upd r) as Ru. pose proof (row_small mt r Hr) as Rs.
  assert (Rs2 : r_h r / r_d r / 2 <= 10) by (apply Nat.div_le_upper_bound; lia).
  pose proof (row_pkgen (sk_fast r)) as Rp. pose proof (row_unit (sk_fast r)) as Rv. pose proof (row_few sk) as Rf.
  destruct mt.
  - eapply runs_weak; [apply w_mt_sign; [|rewrite Ru; lia]| |auto].
    + intros b i Hb Hi. apply (Rf b i Hk Hb Hi). destruct Hfew as [Z|Z]; [discriminate|exact Z].
    + unfold fast_mt_max, fast_sign_hashes. rewrite Rp, Rv, Ru. lia.
  - eapply runs_weak; [apply w_fast_sign| |auto]. unfold fast_max, fast_sign_hashes. rewrite Rp, Rv, Ru. lia.
Qed.
(** a refused call *)
Lemma fast_refused sk sm smlen m o : key_of r (fast_size r) sk -> sign mt fast_core sk sm smlen m = Ok o -> so_rc o = (-2)%Z -> hashes (fast_sign_work mt sk sm smlen m) = 0%N.
Proof.
  intros Hk Ho Hrc. rewrite <- work_fast_sign in Ho. unfold fast_sign_work, sign_wrapper_c in *.
  rewrite (key_oid mt r Hr _ _ Hk), cbind_ok in *. pose proof (parse_accept_fast mt r uninit_params Hr) as Hp. unfold parse_oid in Hp. cbn [fast_core c_sk_bytes] in *. rewrite Hp, cbind_ok in *.
  rewrite out_bind in Ho. set (c := (if mt then fast_xmssmt_core_sign_w else fast_xmss_core_sign_w) _ _ _ _ _) in *.
  assert (Hc : forall o, out c = Ok o -> so_rc o = (-2)%Z -> count c = 0%N).
  { unfold c. clear. intros o Ho Hrc. destruct mt; [now apply (mt_refused _ _ _ _ _ o)|now apply (xmss_refused _ _ _ _ _ o)]. }
  unfold cbind. destruct (out c) as [o1| |] eqn:Eo; [|discriminate Ho..]. cbn in Ho. injection Ho as <-. cbn [so_rc] in Hrc. cbn [count free]. rewrite (Hc o1 eq_refl Hrc). reflexivity.
Qed.
Lemma fast_keypair_hashes pk sk rnd : (hashes (fast_keypair_work mt pk sk (r_oid r) rnd) <= fast_key_max r)%N /\ (forall x, keypair mt fast_core pk sk (r_oid r) rnd = Ok x -> (fast_key_min r <= hashes (fast_keypair_work mt pk sk (r_oid r) rnd))%N).
Proof.
  assert (Hc : runs (fast_keypair_work mt pk sk (r_oid r) rnd) (fast_key_max r) (fun _ l => fast_key_min r <= l)%N).
  { unfold fast_keypair_work, keypair_wrapper_c. pose proof (parse_accept_fast mt r uninit_params Hr) as Hp. unfold parse_oid in Hp. cbn [fast_core c_sk_bytes] in *. rewrite Hp, cbind_ok. rstep. rstep.
    pose proof (row_pkgen (sk_fast r)) as Rp.
    apply (runs_bind _ _ (fast_key_max r) (fun _ => 0%N) _ (fun _ l => fast_key_min r <= l)%N); [|lia|].
    - destruct mt.
      + match goal with |- runs (_ _ ?a ?b _) _ _ => pose proof (w_mt_keypair pf a b rnd) as X end.
        assert (Hd : 0 < p_d pf) by (pose proof (fp_d true r Hr) as Y; lia). specialize (X Hd).
        unfold mt_key_max, mt_key_min in X. rewrite (row_tree true r Hr), Rp, row_dd, (proj1 (row_wots true r Hr _)) in X. exact X.
      + match goal with |- runs (_ _ ?a ?b _) _ _ => pose proof (w_fast_keypair pf a b rnd) as X end. rewrite (row_tree false r Hr) in X.
        assert (D1 : r_d r = 1). { assert (Hx : forallb (fun r => r_d r =? 1) (rows false) = true) by (vm_compute; reflexivity). rewrite forallb_forall in Hx. apply Nat.eqb_eq, Hx, Hr. }
        unfold fast_key_max, fast_key_min. rewrite D1. eapply runs_weak; [exact X|lia|]. intros zx zl _ ->. lia.
    - intros [[zrc zpk] zsk] l _ Hl Hm. split; [|lia]. apply runs_ok. lia. }
  destruct Hc as [C1 C2]. split; [exact C1|]. intros x Hx. apply (C2 x). now rewrite work_fast_keypair.
Qed.
(** hash calls against leaves *)
Lemma leaves_hashes sk sm smlen m o : oid_of_bytes sk = Ok (r_oid r) -> sign mt fast_core sk sm smlen m = Ok o ->
  (leaves (fast_sign_cost mt sk sm smlen m) * leaf_hashes r <= hashes (fast_sign_work mt sk sm smlen m))%N.
Proof.
  intros Hk Ho.
  assert (Hd : dom (leaf_work pf) (fast_sign_cost mt sk sm smlen m) (fast_sign_work mt sk sm smlen m)).
  { apply (dm_wrap _ _ _ _ _ _ _ _ _ (r_oid r) pf Hk (parse_accept_fast mt r uninit_params Hr)).
    intros. destruct mt; [apply dm_mt_sign|apply dm_sign]. }
  destruct Hd as [_ Hd]. rewrite (row_leaf mt r Hr) in Hd. rewrite N.mul_comm. apply (Hd o). rewrite cost_fast_sign. exact Ho.
Qed.
End Row.

(** the number of the parameter set stays in the key *)
Section Oid.
Context {E : Env}.
Lemma sign_oid mt c sk sm smlen m o x : 4 <= length sk -> sign mt c sk sm smlen m = Ok o -> firstn 4 sk = x -> firstn 4 (so_sk o) = x.
Proof.
  intros Hl Hs <-.
  assert (Hw : forall parse sg, sign_wrapper parse (c_sk_bytes c) sg sk sm smlen m = Ok o -> firstn 4 (so_sk o) = firstn 4 sk).
  { clear. intros parse sg. unfold sign_wrapper. intros H. apply bind_inv in H as (oid & Ho & H). apply bind_inv in H as (op & _ & H). destruct op as [p|]; [|injection H as <-; reflexivity].
    apply bind_inv in H as (o1 & _ & H). injection H as <-. cbn [so_sk]. unfold XMSS_OID_LEN. apply firstn_app_len. rewrite firstn_length.
    assert (4 <= length sk) by (do 4 (destruct sk as [|? sk]; [discriminate Ho|]); cbn; lia). lia. }
  unfold sign, xmss_sign, xmssmt_sign in Hs. destruct mt; exact (Hw _ _ Hs).
Qed.
Lemma run_oid mt c x cs : forall sk sk' os, 4 <= length x -> firstn 4 sk = x -> sign_run mt c sk cs = Ok (sk', os) -> firstn 4 sk' = x.
Proof.
  induction cs as [|k cs IH]; intros sk sk' os Hx Hsk; cbn [sign_run]; [intros [= <- _]; exact Hsk|].
  intros H. apply bind_inv in H as (o & Ho & H). apply bind_inv in H as ([sk2 os2] & H2 & H). injection H as <- <-.
  eapply IH; [exact Hx| |exact H2]. eapply sign_oid; [|exact Ho|exact Hsk]. rewrite <- Hsk, firstn_length in Hx. lia.
Qed.
Lemma keypair_oid mt c pk sk oid rnd pk' sk' : keypair mt c pk sk oid rnd = Ok (0%Z, pk', sk') -> firstn 4 sk' = toByte oid 4.
Proof.
  assert (Hw : forall parse kp, keypair_wrapper parse (c_sk_bytes c) kp pk sk oid rnd = Ok (0%Z, pk', sk') -> firstn 4 sk' = toByte oid 4).
  { intros parse kp. unfold keypair_wrapper. intros H. apply bind_inv in H as (op & _ & H). destruct op as [p|]; [|discriminate].
    apply bind_inv in H as (pk1 & _ & H). apply bind_inv in H as (sk1 & H1 & H). apply bind_inv in H as ([[z a] b] & _ & H).
    assert (Ek : sk' = firstn XMSS_OID_LEN sk1 ++ b) by congruence. rewrite Ek; clear Ek H.
    rewrite oid_to_bytes_spec in H1. unfold wr in H1. destruct (0 + length (toByte oid 4) <=? length sk); [|discriminate]. change (Ok (toByte oid 4 ++ skipn (0 + length (toByte oid 4)) sk) = Ok sk1) in H1.
    assert (E1 : sk1 = toByte oid 4 ++ skipn (0 + length (toByte oid 4)) sk) by congruence.
    assert (F : firstn 4 sk1 = toByte oid 4) by (rewrite E1; apply firstn_app_len; now rewrite toByte_length).
    change XMSS_OID_LEN with 4. rewrite F. apply firstn_app_len. now rewrite toByte_length. }
  unfold keypair, xmss_keypair, xmssmt_keypair. destruct mt; apply Hw.
Qed.
Lemma sign_run_snoc mt c k : forall cs sk sk' os sk2 os2, sign_run mt c sk cs = Ok (sk', os) -> sign_run mt c sk (cs ++ [k]) = Ok (sk2, os2) ->
  exists o, sign mt c sk' (c_sm k) (c_smlen k) (c_m k) = Ok o.
Proof.
  induction cs as [|k1 cs IH]; intros sk sk' os sk2 os2; cbn [sign_run app].
  - intros [= <- _] H. apply bind_inv in H as (o & Ho & _). eauto.
  - intros H1 H2. apply bind_inv in H1 as (o & Ho & H1). apply bind_inv in H1 as ([sk3 os3] & H3 & H1). injection H1 as <- <-.
    rewrite Ho in H2. apply bind_inv in H2 as (o2 & Ho2 & H2). injection Ho2 as <-. apply bind_inv in H2 as ([sk4 os4] & H4 & _). eapply IH; [exact H3|exact H4].
Qed.
End Oid.

(** where the update counter wraps (C71), the bound on the hash calls is passed as well *)
Section Wrap.
Context {E : Env}.
Hypothesis HE : env_ok E.
Lemma five_hashes r : In r (rows true) -> r_h r / r_d r / 2 + 2 <= r_d r -> (fast_sign_hashes true r < 7 * leaf_hashes r)%N /\ (2 ^ 20 <= fast_limit r)%N.
Proof.
  intros Hr Hm. assert (Hx : forallb (fun r => (r_d r <? r_h r / r_d r / 2 + 2)%nat || ((fast_sign_hashes true r <? 7 * leaf_hashes r)%N && (2 ^ 20 <=? fast_limit r)%N)) (rows true) = true) by (vm_compute; reflexivity).
  rewrite forallb_forall in Hx. specialize (Hx r Hr). apply orb_true_iff in Hx as [A|A]; [apply Nat.ltb_lt in A; lia|].
  apply andb_true_iff in A as [A B]. apply N.ltb_lt in A. apply N.leb_le in B. now split.
Qed.
End Wrap.
