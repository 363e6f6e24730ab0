(** The number of hash calls of signing with the fast core, whatever the key contains. *)
From Coq Require Import ZArith.
From Verif Require Import Base Lib ModelUtils ModelParams ModelHash ModelWots ModelCommons ModelCore ModelCoreFast ModelXmss.
From Verif Require Import ModelCost ProofCost ProofCost2 ProofCost3 ModelWork ProofWork ProofWork2 ProofWork3 ModelWorkFast ProofWorkFast.

Section WithEnv.
Context {E : Env}.
Notation len p := (N.of_nat (wots_len p)).
Notation th p := (N.of_nat (tree_height p)).

(** one tree-hash update, or one step of the next tree: a leaf and at most th + 1 inner nodes *)
Definition unit_work p : N := (leaf_work p + 4 * (th p + 1))%N.
Definition lv_ok p (s : bds_state) : Prop := length (st_stacklevels s) <= tree_height p + 1.
Definition lvs_ok p (ss : list bds_state) : Prop := Forall (lv_ok p) ss.

Lemma lvs_rdc p ss i s : lvs_ok p ss -> rdc ss i = Ok s -> lv_ok p s.
Proof. intros Hs Hr. apply rdc_inv, nth_error_In in Hr. unfold lvs_ok in Hs. rewrite Forall_forall in Hs. now apply Hs. Qed.
Lemma lvs_upd p ss i s : lvs_ok p ss -> lv_ok p s -> lvs_ok p (upd ss i s).
Proof.
  unfold lvs_ok. intros Hs Hx. revert i. induction Hs as [|y l Hy Hl IH]; intros i; [destruct i; constructor|].
  destruct i as [|i]; cbn; constructor; auto.
Qed.
Lemma lvs_wrc p ss i s ss' : lvs_ok p ss -> lv_ok p s -> wrc ss i s = Ok ss' -> lvs_ok p ss'.
Proof. intros Hs Hx Hw. apply wrc_inv in Hw as [_ ->]. now apply lvs_upd. Qed.
Lemma load_lv p sk o s o' : load_state p sk o = Ok (s, o') -> lv_ok p s.
Proof.
  unfold load_state. cbv zeta. intros H.
  repeat (apply bind_inv in H as (? & ? & H)). injection H as <- _. unfold lv_ok. cbn [st_stacklevels].
  match goal with A : rd sk _ (tree_height p + 1) = Ok ?x |- length ?x <= _ => apply rd_length in A; rewrite A end. lia.
Qed.
Lemma forN_keep {S} (P : S -> Prop) (body : nat -> S -> res S) : (forall i s s', P s -> body i s = Ok s' -> P s') ->
  forall k i s s', P s -> forN k i body s = Ok s' -> P s'.
Proof.
  intros Hb. induction k as [|k IH]; intros i s s' Hs; cbn [forN]; [now intros [= <-]|].
  intros H. apply bind_inv in H as (s1 & H1 & H2). eapply IH; [|exact H2]. eapply Hb; [exact Hs|exact H1].
Qed.
Lemma deserialize_lv p sk ss ws : xmssmt_deserialize_state p sk = Ok (ss, ws) -> lvs_ok p ss.
Proof.
  unfold xmssmt_deserialize_state. destruct (p_d p =? 0); [discriminate|]. intros H. apply bind_inv in H as ([ss1 o] & H1 & H2).
  apply bind_inv in H2 as (w & _ & [= <- _]). apply (forN_keep (fun '(l, _) => lvs_ok p l)) in H1; [exact H1| |constructor].
  intros i [l o1] [l' o2] Hl H. apply bind_inv in H as ([s o3] & Hs & [= <- <-]). apply Forall_app. split; [exact Hl|]. constructor; [eapply load_lv, Hs|constructor].
Qed.
Lemma reload_lv p l1 l2 : lvs_ok p l1 -> lvs_ok p (reload_all l1 l2).
Proof.
  unfold lvs_ok, reload_all. intros H. revert l2. induction H as [|x l Hx Hl IH]; intros l2; [constructor|].
  destruct l2 as [|y l2]; [constructor|]. cbn. constructor; [exact Hx|apply IH].
Qed.
Lemma place_lv p s i h x s' : place_node p s i h x = Ok s' -> st_stacklevels s' = st_stacklevels s.
Proof.
  unfold place_node. cbv zeta. intros H.
  repeat match type of H with
  | (if ?b then _ else _) = _ => destruct b
  | bind _ _ = _ => apply bind_inv in H as (? & ? & H)
  end; try discriminate; injection H as <-; reflexivity.
Qed.
Lemma swap_lv p ss a b ss' : lvs_ok p ss -> deep_state_swap ss a b = Ok ss' -> lvs_ok p ss'.
Proof.
  unfold deep_state_swap. intros Hs H. apply bind_inv in H as (x & Hx & H). apply bind_inv in H as (y & Hy & H). apply bind_inv in H as (s1 & H1 & H2).
  eapply lvs_wrc; [|eapply lvs_rdc; [exact Hs|exact Hx]|exact H2]. eapply lvs_wrc; [exact Hs|eapply lvs_rdc; [exact Hs|exact Hy]|exact H1].
Qed.

(** the loops: each merge takes a level from the stack *)
Lemma rdc_lt {A} (l : list A) i x : rdc l i = Ok x -> i < length l.
Proof. intros H. apply rdc_inv in H. apply nth_error_Some. congruence. Qed.
Lemma w_update_while p u : forall ni ps s o nd nh na,
  runs (treehash_update_while_w p u ni ps s o nd nh na) (4 * N.of_nat (Nat.min o (length (st_stacklevels s)))) (fun _ _ => True).
Proof.
  induction u as [|u IH]; intros ni ps s o nd nh na; cbn [treehash_update_while_w]; [rstep; exact I|]. cbv zeta.
  destruct (Nat.eqb_spec o 0) as [->|Ho]; [rstep|]. rstep. match goal with A : rdc _ (o - 1) = Ok _ |- _ => apply rdc_lt in A; rename A into Hlt end.
  rstep; [|rstep; exact I]. rstep. eapply (runs_then _ _ 4%N); [apply w_thash_h|lia|]. intros [? ?] _.
  eapply runs_weak; [apply IH|lia|auto].
Qed.
Lemma w_state_while p f : forall idx ps s na,
  runs (bds_state_update_while_w p f idx ps s na) (4 * N.of_nat (Nat.min (st_stackoffset s - 1) (length (st_stacklevels s)))) (fun '(s', _) _ => length (st_stacklevels s') = length (st_stacklevels s)).
Proof.
  induction f as [|f IH]; intros idx ps s na; cbn [bds_state_update_while_w]; cbv zeta;
    (destruct (Nat.leb_spec (st_stackoffset s) 1) as [Ho|Ho]; [rstep; reflexivity|]); rstep;
    match goal with A : rdc _ (st_stackoffset s - 1) = Ok _ |- _ => apply rdc_lt in A; rename A into Hlt end;
    rstep; (rstep; [rstep; reflexivity|]).
  - rstep. discriminate.
  - rstep. rstep. match goal with A : place_node _ _ _ _ _ = Ok ?y |- _ => apply place_lv in A; rename A into Hpl; rename y into s1 end.
    rstep; [rstep|]. rstep. eapply (runs_then _ _ 4%N); [apply w_thash_h|lia|]. intros [? ?] _. rstep. rstep.
    match goal with A : wrc _ _ _ = Ok ?y |- _ => apply wrc_inv in A as [Hl2 ->] end.
    eapply runs_weak; [apply IH| |].
    + cbn [st_stackoffset st_stacklevels set_stackoffset set_stacklevels set_stack]. rewrite upd_length, Hpl. lia.
    + intros [s2 na2] lz _ Hq. cbv beta iota in *. rewrite Hq. cbn [st_stackoffset st_stacklevels set_stackoffset set_stacklevels set_stack]. now rewrite upd_length, Hpl.
Qed.

Lemma w_update p j s sks ps sub : lv_ok p s -> runs (treehash_update_w p j s sks ps sub) (unit_work p) (fun s' _ => lv_ok p s').
Proof.
  intros Hl. unfold treehash_update_w, unit_work. cbv zeta. rstep. rthen (leaf_work p) w_leaf. destruct z as [[leaf ?] ?].
  eapply (runs_bind _ _ _ (fun _ => 0%N) _ (fun _ _ => True)); [apply w_update_while|unfold lv_ok in Hl; lia|].
  intros [[[nd nh] us] o] l _ Hl2 _. split; [|unfold lv_ok in Hl; lia]. rstep.
  - repeat rstep; try exact Hl.
  - rstep. rstep. match goal with A : wrc (st_stacklevels _) _ _ = Ok _ |- _ => apply wrc_inv in A as [_ ->] end.
    rstep. rstep. unfold lv_ok in *. cbn [st_stacklevels set_stackoffset] in *. now rewrite upd_length.
Qed.
Lemma w_loop {S} (P : S -> Prop) (u1 : N) (body : S * N -> cost (S * N * bool)) :
  (forall s u, P s -> runs (body (s, u)) u1 (fun '(s', u', b) l => P s' /\ (u <= u' <= u + 1 /\ l <= (u' - u) * u1)%N)) ->
  forall k s u, P s -> runs (cloop_pos k body (s, u)) (N.pos k * u1) (fun '(s', u', b) l => P s' /\ (u <= u' <= u + N.pos k /\ l <= (u' - u) * u1)%N).
Proof.
  intros Hb. induction k as [q IH|q IH|]; intros s u Hs; cbn [cloop_pos].
  - apply (runs_bind _ _ u1 (fun _ => N.pos q * u1 + N.pos q * u1)%N _ (fun '(s', u', _) l => P s' /\ (u <= u' <= u + 1 /\ l <= (u' - u) * u1)%N)); [now apply Hb|lia|].
    intros [[s1 u1'] b] l _ Hl (Hs1 & Hu1). split; [|lia]. destruct b; [apply runs_ok; split; [exact Hs1|split; [lia|lia]]|].
    apply (runs_bind _ _ (N.pos q * u1) (fun _ => N.pos q * u1)%N _ (fun '(s', u', _) l' => P s' /\ (u1' <= u' <= u1' + N.pos q /\ l' <= (u' - u1') * u1)%N)); [now apply IH|lia|].
    intros [[s2 u2'] b] l2 _ Hl2 (Hs2 & Hu2). split; [|lia]. destruct b; [apply runs_ok; split; [exact Hs2|split; [lia|nia]]|].
    eapply runs_weak; [now apply IH|lia|]. intros [[s3 u3'] b] l3 _ (Hs3 & Hu3). split; [exact Hs3|split; [lia|nia]].
  - apply (runs_bind _ _ (N.pos q * u1) (fun _ => N.pos q * u1)%N _ (fun '(s', u', _) l' => P s' /\ (u <= u' <= u + N.pos q /\ l' <= (u' - u) * u1)%N)); [now apply IH|lia|].
    intros [[s2 u2'] b] l2 _ Hl2 (Hs2 & Hu2). split; [|lia]. destruct b; [apply runs_ok; split; [exact Hs2|split; [lia|nia]]|].
    eapply runs_weak; [now apply IH|lia|]. intros [[s3 u3'] b] l3 _ (Hs3 & Hu3). split; [exact Hs3|split; [lia|nia]].
  - eapply runs_weak; [now apply Hb|lia|]. intros [[s3 u3'] b] l3 _ (Hs3 & Hu3). split; [exact Hs3|lia].
Qed.
Lemma w_updates p s u sks ps sub : lv_ok p s ->
  runs (bds_treehash_update_w p s u sks ps sub) (u * unit_work p) (fun '(s', r) l => lv_ok p s' /\ exists k, (k <= u /\ l <= k * unit_work p)%N /\ r = via_char (u - k)).
Proof.
  intros Hs. unfold bds_treehash_update_w.
  apply (runs_bind _ _ (u * unit_work p) (fun _ => 0%N) _ (fun '(s', u', _) l => lv_ok p s' /\ (u' <= u /\ l <= u' * unit_work p)%N)); [|lia|].
  - destruct u as [|q]; [apply runs_ok; split; [exact Hs|lia]|]. unfold cloopN.
    eapply runs_weak; [apply (w_loop (lv_ok p) (unit_work p)); [|exact Hs]|lia|intros [[s1 u1] b] l _ (H1 & H2); split; [exact H1|split; [lia|]]].
    + intros s1 u1 Hs1. rstep. rstep; [|apply runs_ok; split; [exact Hs1|lia]].
      apply (runs_bind _ _ (unit_work p) (fun _ => 0%N) _ (fun s' l => lv_ok p s' /\ (l <= unit_work p)%N)); [|lia|].
      * pose proof (w_update p n s1 sks ps sub Hs1) as [X1 X2]. split; [exact X1|]. intros xq Hxq. split; [now apply X2|exact X1].
      * intros s2 l2 _ _ [H1 H2]. split; [|lia]. apply runs_ok. split; [exact H1|lia].
    + destruct H2 as [_ H2]. now rewrite N.sub_0_r in H2.
  - intros [[s1 u1] b] l _ Hl (H1 & H2). split; [|lia]. apply runs_ok. rewrite N.add_0_r. split; [exact H1|]. exists u1. split; [exact H2|reflexivity].
Qed.
Lemma w_state p s sks ps sub : lv_ok p s -> runs (bds_state_update_w p s sks ps sub) (unit_work p) (fun s' _ => lv_ok p s').
Proof.
  intros Hs. unfold bds_state_update_w, unit_work. cbv zeta. rstep. rstep. rstep; [apply runs_ok; exact Hs|].
  rthen (leaf_work p) w_leaf. destruct z as [[leaf ?] ?]. rstep. rstep.
  match goal with A : wrc (st_stacklevels _) _ _ = Ok _ |- _ => apply wrc_inv in A as [Hlt ->] end.
  eapply (runs_bind _ _ 0%N (fun _ => 4 * (th p + 1))%N _ (fun s' l => l = 0%N /\ length (st_stacklevels s') = length (st_stacklevels s))); [|lia|].
  { repeat rstep; (split; [reflexivity|]); cbn [st_stacklevels set_stackoffset set_stacklevels set_stack set_treehash]; apply upd_length. }
  intros s1 l1 _ _ [-> Hl1]. split; [|lia].
  eapply (runs_bind _ _ _ (fun _ => 0%N) _ (fun '(s', _) _ => length (st_stacklevels s') = length (st_stacklevels s1))); [apply w_state_while|unfold lv_ok in Hs; lia|].
  intros [s2 ?] l2 _ Hl2 Hq. split; [|unfold lv_ok in Hs; lia]. rstep. unfold lv_ok in *. cbn [st_stacklevels set_next_leaf]. lia.
Qed.
Lemma w_round p s li sks ps sub : lv_ok p s -> runs (bds_round_w p s li sks ps sub) (unit_work p) (fun s' _ => lv_ok p s').
Proof.
  intros Hs. unfold bds_round_w, unit_work. cbv zeta. rstep.
  eapply (runs_bind _ _ 0%N (fun _ => leaf_work p + 4 * (th p + 1))%N _ (fun _ l => l = 0%N)); [repeat rstep; reflexivity|lia|].
  intros zb zl1 _ _ ->. split; [|lia].
  eapply (runs_bind _ _ 0%N (fun _ => leaf_work p + 4 * (th p + 1))%N _ (fun s' l => l = 0%N /\ lv_ok p s')); [repeat rstep; (split; [reflexivity|exact Hs])|lia|].
  intros s1 zl1 _ _ [-> Hs1]. split; [|lia]. rstep.
  - rthen (leaf_work p) w_leaf. destruct z as [[leaf ?] ?]. repeat rstep; exact Hs1.
  - eapply (runs_then _ _ 4%N); [apply w_thash_h|lia|]. intros [? ?] _. rstep.
    eapply (runs_bind _ _ 0%N (fun _ => 0%N) _ (fun _ l => l = 0%N)); [apply runs_for0; [intros; repeat rstep; reflexivity|reflexivity]|lia|].
    intros zau zl1 _ _ ->. split; [|lia]. rstep.
    eapply (runs_bind _ _ 0%N (fun _ => 0%N) _ (fun _ l => l = 0%N)); [apply runs_for0; [intros; repeat rstep; reflexivity|reflexivity]|lia|].
    intros zth zl1 _ _ ->. split; [|lia]. repeat rstep; exact Hs1.
Qed.
Lemma w_wsign_max p m i s a : runs (wots_sign_w p m i s a) (pkgen_work p) (fun _ _ => True).
Proof. eapply runs_weak; [apply w_wsign| |auto]. pose proof (sign_digits_le p m). unfold pkgen_work. nia. Qed.
Lemma pkgen_unit p : (pkgen_work p <= unit_work p)%N.
Proof. unfold unit_work, leaf_work. lia. Qed.

(** ** One layer *)
Definition fast_max p : N := (2 + pkgen_work p + (upd_N p + 1) * unit_work p)%N.
Ltac rfw := match goal with
  | |- runs (cbind (free _) _) _ _ => rstep
  | |- runs (free _) _ _ => rstep
  | |- runs (if _ then _ else _) _ _ => rstep
  end.
Lemma w_fast_body p idx sk ss ws sm m : lvs_ok p ss -> runs (fast_sign_body_w p idx sk ss ws sm m) (fast_max p) (fun o _ => so_rc o = 0%Z).
Proof.
  intros Hss. unfold fast_sign_body_w, fast_max. cbv zeta. do 3 rfw. rfw.
  match goal with A : rdc ss 0 = Ok _ |- _ => pose proof (lvs_rdc p ss _ _ Hss A) as Hs0 end. rfw.
  eapply (runs_then _ _ 1%N); [apply w_prf|lia|]. intros R _. repeat rfw.
  eapply (runs_then _ _ 1%N); [apply w_hmsg|lia|]. intros [mh sm1] _. rfw. rfw.
  eapply (runs_bind _ _ (pkgen_work p) (fun _ => (upd_N p + 1) * unit_work p)%N _ (fun _ _ => True)); [apply w_wsign_max|lia|].
  intros [sig oa] l1 _ Hl1 _. split; [|lia]. rfw. rfw. rfw. rfw.
  eapply (runs_bind _ _ ((upd_N p + 1) * unit_work p)%N (fun _ => 0%N) _ (fun _ _ => True)); [|lia|].
  - rstep; [|apply runs_ok; exact I].
    eapply (runs_bind _ _ (unit_work p) (fun _ => upd_N p * unit_work p)%N _ (fun s' _ => lv_ok p s')); [now apply w_round|lia|].
    intros s1 l2 _ Hl2 Hs1. split; [|lia].
    eapply (runs_bind _ _ (upd_N p * unit_work p)%N (fun _ => 0%N) _ (fun _ _ => True)); [eapply runs_weak; [now apply w_updates|fold (upd_N p); lia|auto]|lia|].
    intros [s2 ?] l3 _ Hl3 _. split; [|lia]. rstep; exact I.
  - intros s1 l2 _ Hl2 _. split; [|lia]. repeat rstep; reflexivity.
Qed.
Lemma w_fast_sign p sk sm smlen m : runs (fast_xmss_core_sign_w p sk sm smlen m) (fast_max p) (fun o l => so_rc o = (-2)%Z -> l = 0%N).
Proof.
  unfold fast_xmss_core_sign_w. cbv zeta. rfw. match goal with |- runs (let (_, _) := ?x in _) _ _ => destruct x as [ss ws] | |- runs (match ?x with _ => _ end) _ _ => destruct x as [ss ws] end.
  match goal with A : xmssmt_deserialize_state p sk = Ok _ |- _ => apply deserialize_lv in A; rename A into Hss end.
  rfw. rfw. rfw. rfw.
  - rfw. rfw. rfw; [rstep; reflexivity|]. rfw; [rstep; reflexivity|]. rfw. match goal with |- runs (let (_, _) := ?x in _) _ _ => destruct x as [zs ws2] | |- runs (match ?x with _ => _ end) _ _ => destruct x as [zs ws2] end.
    match goal with A : xmssmt_deserialize_state p _ = Ok _ |- _ => apply deserialize_lv in A; rename A into Hzs end.
    eapply runs_weak; [apply w_fast_body, reload_lv, Hzs|lia|]. intros o l _ -> ?. discriminate.
  - eapply runs_weak; [apply w_fast_body, Hss|lia|]. intros o l _ -> ?. discriminate.
Qed.

(** ** Several layers *)
Section Mt.
Variable p : xmss_params.
Variables (idx : N) (sks ps : bytes).
Notation U := (upd_N p).
Notation u := (unit_work p).

(** [L] hash calls after [c] layers *)
Definition winv (c : nat) (v : mt_vars) (L : N) : Prop :=
  lvs_ok p (mv_ss v) /\
  ((mv_swap v = Z.of_nat c - 1 /\ (mv_updates v + N.of_nat c = U)%N /\ (L <= N.of_nat c * u)%N)%Z \/
   ((mv_swap v + 1 < Z.of_nat c)%Z /\ (L + mv_updates v * u <= (U + 1) * u)%N /\ (mv_updates v <= U)%N /\
    (forall i, c <= i -> ends p idx i = true -> stops p idx = true))).

Hypothesis HU : (U < 128)%N.
Hypothesis Hfew : few_ends p idx.

Lemma w_layer c v L : c < p_d p -> winv c v L ->
  runs (mt_layer_step_w p idx sks ps c v) ((U + 1) * u - L) (fun v' l => winv (S c) v' (L + l)).
Proof.
  intros Hc [Hss Hv]. unfold mt_layer_step_w. cbv zeta. rstep. rstep. rstep.
  repeat match goal with A : shl1_int _ = Ok _ |- _ => apply shl_int_val in A; subst | A : shl1_ull _ = Ok _ |- _ => apply shl_ull_val in A; subst end.
  fold (ends p idx c). destruct (ends p idx c) eqn:Ec; cbn [negb].
  - (* end of a tree *)
    destruct (idx <? 2 ^ N.of_nat (full_height p) - 1)%N eqn:Es.
    + assert (Sf : stops p idx = false) by (unfold stops; now rewrite Es).
      destruct Hv as [(V1 & V2 & V3)|(_ & _ & _ & V4)]; [|exfalso; rewrite (V4 c (le_n c) Ec) in Sf; discriminate].
      pose proof (Hfew c Hc Ec Sf) as Hc2. pose proof (pkgen_unit p) as Hpu.
      rstep. match goal with A : deep_state_swap _ _ _ = Ok _ |- _ => apply (swap_lv p _ _ _ _ Hss) in A; rename A into Hs1 end.
      rstep. rstep. rstep. match goal with A : rdc _ c = Ok _ |- _ => pose proof (lvs_rdc p _ _ _ Hs1 A) as Hs2 end.
      assert (HL : (L + u <= (U + 1) * u)%N).
      { assert (N.of_nat c * u + u <= (U + 1) * u)%N; [|lia]. replace (N.of_nat c * u + u)%N with ((N.of_nat c + 1) * u)%N by lia. apply N.mul_le_mono_r. lia. }
      eapply (runs_bind _ _ (pkgen_work p) (fun _ => 0%N) _ (fun _ l => (l <= pkgen_work p)%N)); [|lia|].
      { match goal with |- runs (wots_sign_w p ?m ?i ?s ?a) _ _ => pose proof (w_wsign_max p m i s a) as [X1 X2] end. split; [exact X1|]. intros; exact X1. }
      intros [sig ots] l _ Hl _. split; [|lia]. rstep. rstep.
      match goal with A : rdc _ (p_d p + c) = Ok _ |- _ => pose proof (lvs_rdc p _ _ _ Hs1 A) as Hs3 end.
      rstep. match goal with A : wrc _ (p_d p + c) _ = Ok _ |- _ => apply (lvs_wrc p _ _ _ _ Hs1) in A; [rename A into Hs4|exact Hs3] end.
      rstep. match goal with A : wrc _ c _ = Ok _ |- _ => apply (lvs_wrc p _ _ _ _ Hs4) in A; [rename A into Hs5|exact Hs2] end.
      rstep. split; [exact Hs5|]. left. cbn [mv_swap mv_updates]. split; [lia|]. split.
      * unfold u32. replace (mv_updates v + (2 ^ 32 - 1))%N with ((mv_updates v - 1) + 1 * 2 ^ 32)%N by lia.
        rewrite N.mod_add by discriminate. rewrite N.mod_small by (change (2 ^ 32)%N with 4294967296%N; lia). lia.
      * rewrite Nat2N.inj_succ, N.mul_succ_l. lia.
    + assert (Sf : stops p idx = true) by (unfold stops; now rewrite Es).
      apply runs_ok. split; [exact Hss|]. right. rewrite N.add_0_r. destruct Hv as [(V1 & V2 & V3)|(V1 & V2 & V3 & V4)].
      * split; [lia|]. split; [|split; [lia|auto]].
        assert ((N.of_nat c + mv_updates v) * u <= (U + 1) * u)%N by (apply N.mul_le_mono_r; lia). lia.
      * repeat split; try lia; auto.
  - (* inside a tree *)
    assert (Hno : forall i, S c <= i -> ends p idx i = true -> stops p idx = true).
    { intros i Hi Hend. exfalso. rewrite (ends_down p idx i c ltac:(lia) Hend) in Ec. discriminate. }
    rstep. rstep. rstep. match goal with A : rdc _ c = Ok _ |- _ => pose proof (lvs_rdc p _ _ _ Hss A) as Hs0 end.
    set (rr := (if (Z.of_nat c =? mv_swap v + 1)%Z then u else 0)%N).
    assert (Hb : (L + rr + mv_updates v * u <= (U + 1) * u /\ mv_updates v <= U)%N).
    { unfold rr. destruct (Z.eqb_spec (Z.of_nat c) (mv_swap v + 1)) as [Hz|Hz], Hv as [(V1 & V2 & V3)|(V1 & V2 & V3 & V4)]; try lia. }
    assert (Hsw : (mv_swap v + 1 < Z.of_nat (S c))%Z).
    { destruct Hv as [(V1 & V2 & V3)|(V1 & V2 & V3 & V4)]; lia. }
    apply (runs_bind _ _ rr (fun _ => mv_updates v * u)%N _ (fun s' l => lv_ok p s')); [|lia|].
    { unfold rr. destruct (Z.of_nat c =? mv_swap v + 1)%Z; [now apply w_round|apply runs_ok; exact Hs0]. }
    intros s1 l1 _ Hl1 Hs1. split; [|lia].
    apply (runs_bind _ _ (mv_updates v * u) (fun l => mv_updates v * u - l)%N _ (fun '(s', r) l => lv_ok p s' /\ exists k, (k <= mv_updates v /\ l <= k * u)%N /\ r = via_char (mv_updates v - k))); [now apply w_updates|lia|].
    intros [s2 r] l2 _ Hl2m [Hs2 (k & [Hk Hl2] & Hr)]. rewrite via_small in Hr by lia. subst r. split; [|lia].
    assert (Hrem : (l2 + (mv_updates v - k) * u <= mv_updates v * u)%N).
    { assert (k * u + (mv_updates v - k) * u = mv_updates v * u)%N by (rewrite <- N.mul_add_distr_r; f_equal; lia). lia. }
    assert (Hk2 : (mv_updates v - k <= mv_updates v)%N) by lia. set (k2 := (mv_updates v - k)%N) in *. clearbody k2.
    rstep. match goal with A : wrc _ c _ = Ok _ |- _ => apply (lvs_wrc p _ _ _ _ Hss) in A; [rename A into Hs3|exact Hs2] end.
    rstep. rstep; [rstep|].
    + rstep. match goal with A : rdc _ (p_d p + c) = Ok _ |- _ => pose proof (lvs_rdc p _ _ _ Hs3 A) as Hs4 end. rstep.
      * match goal with A : (_ && (0 <? _)%N)%bool = true |- _ => apply andb_prop in A as [_ A]; apply N.ltb_lt in A; rename A into Hpos end.
        assert (Hone : ((k2 - 1) * u + u = k2 * u)%N) by (replace k2 with (k2 - 1 + 1)%N at 2 by lia; lia).
        set (k3 := (k2 - 1)%N) in *. assert (Hk3 : (k3 <= U)%N) by lia.
        apply (runs_bind _ _ u (fun _ => 0%N) _ (fun s' l => lv_ok p s')); [now apply w_state|lia|].
        intros s3 l3 _ Hl3 Hs5. split; [|lia]. rstep. match goal with A : wrc _ (p_d p + c) _ = Ok _ |- _ => apply (lvs_wrc p _ _ _ _ Hs3) in A; [rename A into Hs6|exact Hs5] end.
        rstep. split; [exact Hs6|]. right. cbn [mv_swap mv_updates]. split; [exact Hsw|].
        assert (Eu : u32 (k2 + (2 ^ 32 - 1)) = k3).
        { unfold u32. replace (k2 + (2 ^ 32 - 1))%N with (k3 + 1 * 2 ^ 32)%N by lia.
          rewrite N.mod_add by discriminate. apply N.mod_small. change (2 ^ 32)%N with 4294967296%N; lia. }
        rewrite Eu. clearbody k3. repeat split; try lia; auto.
      * rstep. split; [exact Hs3|]. right. cbn [mv_swap mv_updates]. repeat split; try lia; auto.
    + rstep. split; [exact Hs3|]. right. cbn [mv_swap mv_updates]. repeat split; try lia; auto.
    + rstep. split; [exact Hs3|]. right. cbn [mv_swap mv_updates]. repeat split; try lia; auto.
Qed.
Lemma w_layers k : forall c v L, c + k <= p_d p -> winv c v L -> (L <= (U + 1) * u)%N ->
  runs (cforN k c (mt_layer_step_w p idx sks ps) v) ((U + 1) * u - L) (fun _ _ => True).
Proof.
  induction k as [|k IH]; intros c v L Hc Hv HL; cbn [cforN]; [rstep; exact I|].
  eapply (runs_bind _ _ ((U + 1) * u - L)%N (fun l => (U + 1) * u - (L + l))%N _ (fun v' l => winv (S c) v' (L + l))); [apply w_layer; [lia|exact Hv]|lia|].
  intros v' l _ Hl Hv'. split; [|lia]. apply IH; [lia|exact Hv'|lia].
Qed.
End Mt.

Definition fast_mt_max p : N := (2 + pkgen_work p + (upd_N p + 2) * unit_work p)%N.
Lemma w_mt_body p idx sk ss ws sm m : lvs_ok p ss -> few_ends p idx -> (upd_N p < 128)%N ->
  runs (fast_mt_sign_body_w p idx sk ss ws sm m) (fast_mt_max p) (fun o _ => so_rc o = 0%Z).
Proof.
  intros Hss Hd HU. unfold fast_mt_sign_body_w, fast_mt_max. cbv zeta. rfw. rfw. rfw. rfw.
  eapply (runs_then _ _ 1%N); [apply w_prf|lia|]. intros R _. repeat rfw.
  eapply (runs_then _ _ 1%N); [apply w_hmsg|lia|]. intros [mh sm1] _. rfw. rfw. rfw. rfw.
  eapply (runs_bind _ _ (pkgen_work p) (fun _ => (upd_N p + 2) * unit_work p)%N _ (fun _ _ => True)); [apply w_wsign_max|lia|].
  intros [sig oa] l1 _ Hl1 _. split; [|lia]. rfw. rfw. rfw. rfw.
  eapply (runs_bind _ _ 0%N (fun _ => (upd_N p + 2) * unit_work p)%N _ (fun _ l => l = 0%N)); [apply runs_for0; [|reflexivity]|lia|].
  { intros j [? ?]. repeat rstep; reflexivity. }
  intros [zsm zo] zl0 _ _ ->. split; [|lia]. rstep.
  apply (runs_bind _ _ (unit_work p) (fun _ => (upd_N p + 1) * unit_work p)%N _ (fun ss' _ => lvs_ok p ss')); [|lia|].
  { rstep; [|rstep; exact Hss]. rstep. match goal with A : rdc _ (p_d p) = Ok _ |- _ => pose proof (lvs_rdc p _ _ _ Hss A) as Hs4 end.
    apply (runs_bind _ _ (unit_work p) (fun _ => 0%N) _ (fun s' l => lv_ok p s')); [now apply w_state|lia|].
    intros zs3 zl3 _ Hl3 Hs5. split; [|lia]. rstep. intros zq Hzq. exact (lvs_wrc p _ _ _ _ Hss Hs5 Hzq). }
  intros zss zl1 _ Hl2 Hss2. split; [|lia].
  apply (runs_bind _ _ ((upd_N p + 1) * unit_work p)%N (fun _ => 0%N) _ (fun _ _ => True)); [|lia|].
  { rewrite <- (N.sub_0_r ((upd_N p + 1) * unit_work p)). apply w_layers; try assumption; [lia| |lia].
    split; [exact Hss2|]. left. cbn [mv_swap mv_updates]. fold (upd_N p). split; [reflexivity|]. split; [lia|lia]. }
  intros zv zl2 _ Hl3 _. split; [|lia]. repeat rstep; reflexivity.
Qed.
Lemma w_mt_sign p sk sm smlen m : (forall b i, rd sk 0 (index_bytes p) = Ok b -> bytes_to_ull b = Ok i -> few_ends p i) -> (upd_N p < 128)%N ->
  runs (fast_xmssmt_core_sign_w p sk sm smlen m) (fast_mt_max p) (fun o l => so_rc o = (-2)%Z -> l = 0%N).
Proof.
  intros Hd HU. unfold fast_xmssmt_core_sign_w. cbv zeta. rfw. match goal with |- runs (let (_, _) := ?x in _) _ _ => destruct x as [ss ws] | |- runs (match ?x with _ => _ end) _ _ => destruct x as [ss ws] end.
  match goal with A : xmssmt_deserialize_state p sk = Ok _ |- _ => apply deserialize_lv in A; rename A into Hss end.
  rfw. rfw. rfw. rfw.
  - rfw. rfw. rfw; [rstep; reflexivity|]. rfw; [rstep; reflexivity|]. rfw. match goal with |- runs (let (_, _) := ?x in _) _ _ => destruct x as [zs ws2] | |- runs (match ?x with _ => _ end) _ _ => destruct x as [zs ws2] end.
    match goal with A : xmssmt_deserialize_state p _ = Ok _ |- _ => apply deserialize_lv in A; rename A into Hzs end.
    eapply runs_weak; [apply w_mt_body; [apply reload_lv, Hzs|eapply Hd; eassumption|exact HU]|lia|]. intros o l _ -> ?. discriminate.
  - eapply runs_weak; [apply w_mt_body; [exact Hss|eapply Hd; eassumption|exact HU]|lia|]. intros o l _ -> ?. discriminate.
Qed.
End WithEnv.
