(** BDS traversal, part 4: bds_round moves the authentication path from leaf q to leaf q+1. *)
From Verif Require Import Base Lib SpecRfc ModelUtils ModelParams ModelHash ModelWots ModelCommons ModelCore
  ModelCoreFast ProofUtils ProofHash ProofWots ProofCommons ProofTree ProofSched ProofBds1 ProofBds2 ProofBds3.

Lemma find_tau_spec e m : forall i, ones e i ->
  let t := find_tau m i e in i <= t <= i + m /\ ones e t /\ (t < i + m -> N.testbit e (N.of_nat t) = false).
Proof.
  induction m as [|m IH]; intros i Ho t; unfold t; cbn [find_tau].
  - split; [lia|]. split; [exact Ho|lia].
  - destruct (N.testbit e (N.of_nat i)) eqn:Hb.
    + destruct (IH (S i) (ones_S e i Ho Hb)) as (A & B & C). split; [lia|]. split; [exact B|]. intros Hlt. apply C. lia.
    + split; [lia|]. split; [exact Ho|]. intros _. exact Hb.
Qed.
Lemma S_pred1 t : 0 < t -> S (t - 1) = t.
Proof. lia. Qed.
Lemma half_lt l h : l + 1 < h -> l / 2 < h / 2.
Proof.
  intros Hl. pose proof (Nat.div_le_mono l (h - 2) 2 ltac:(lia) ltac:(lia)) as H1.
  replace (h / 2) with ((h - 2) / 2 + 1); [lia|]. replace h with ((h - 2) + 1 * 2) at 2 by lia. rewrite Nat.div_add by lia. lia.
Qed.
Lemma ones_le e t l : ones e t -> l <= t -> ones e l.
Proof.
  intros Ho Hl. pose proof (ones_succ_div e t l Ho Hl) as Hd. unfold ones in *. rewrite <- Hd, <- Ho.
  replace (2 ^ N.of_nat t)%N with (2 ^ N.of_nat (t - l) * 2 ^ N.of_nat l)%N by (rewrite <- N.pow_add_r; f_equal; lia).
  set (m := (e / (2 ^ N.of_nat (t - l) * 2 ^ N.of_nat l) + 1)%N).
  replace (2 ^ N.of_nat (t - l) * 2 ^ N.of_nat l * m)%N with (2 ^ N.of_nat (t - l) * m * 2 ^ N.of_nat l)%N by lia.
  rewrite N.div_mul by apply pow2_pos. lia.
Qed.
Lemma ones_bit e t l : ones e t -> l < t -> N.testbit e (N.of_nat l) = true.
Proof.
  intros Ho Hl. destruct (N.testbit e (N.of_nat l)) eqn:Hb; [reflexivity|exfalso].
  pose proof (ones_stop e l (ones_le e t l Ho ltac:(lia)) Hb t Hl) as H1.
  pose proof (ones_succ_div e t t Ho (le_n _)) as H2. lia.
Qed.

Section Refine.
Context {E : Env}.
Variable p : xmss_params.
Variable Hf : bytes -> bytes.
Hypothesis Hp : params_ok p.
Hypothesis HH : hash_total p Hf.
Notation P := (sp_of p Hf).
Notation n := (p_n p).
Notation H := (tree_height p).
Notation k := (bds_k p).
Notation thc := (thcount p).
Hypothesis Hk : k < H.
Variable U : nat.
Hypothesis HU : Nat.min thc (H - 2) <= 2 * U.

Section One.
Variables (sks seed : bytes) (L T : N).
Hypothesis Hsks : length sks = n.
Hypothesis Hseed : length seed = n.
Notation nd := (node P sks seed L T).
Let Hndl : forall j i, length (nd j i) = n := fun j i => node_length p Hf Hp HH sks seed L T j i.

(** the state holds what is needed to sign with leaf q and to go on from there *)
Record trav (q : nat) (f : sst) (base : list (nat * bytes)) (s : bds_state) : Prop := mkTrav {
  tr_run : running p Hf sks seed L T q f base s;
  tr_auth : forall l, l < H -> ck n (st_auth s) l = nd l (sibling (N.of_nat q / 2 ^ N.of_nat l));
  tr_keep : forall l, l + 1 < H -> N.testbit (N.of_nat q) (N.of_nat l) = true ->
      N.testbit (N.of_nat q) (N.of_nat (l + 1)) = false -> ck n (st_keep s) (l / 2) = nd l (N.of_nat q / 2 ^ N.of_nat l);
  tr_ret : forall j r, H - k <= j -> j < H -> 2 * r + 3 < 2 ^ (H - j) ->
      ck n (st_retain s) (ret_off p j + r) = nd j (N.of_nat (2 * r + 3)) }.

(** moving one right *)
Section Step.
Variables (q tau : nat).
Hypothesis Hq : q + 1 < 2 ^ H.
Hypothesis Hones : ones (N.of_nat q) tau.
Hypothesis Hbit : N.testbit (N.of_nat q) (N.of_nat tau) = false.

Lemma next_low l : l < tau -> sibling (N.of_nat (q + 1) / 2 ^ N.of_nat l) = N.of_nat (2 * (q / 2 ^ (l + 1)) + 3) /\
  (N.of_nat q / 2 ^ N.of_nat l = N.of_nat (2 * (q / 2 ^ (l + 1)) + 1))%N.
Proof.
  intros Hl. pose proof (carry_node (N.of_nat q) l (ones_bit _ _ _ Hones Hl)) as Hc. cbv zeta in Hc.
  rewrite (pow2_of_nat (S l)), <- Nat2N.inj_div in Hc. replace (S l) with (l + 1) in Hc by lia.
  assert (Hd : (N.of_nat q / 2 ^ N.of_nat l = N.of_nat (2 * (q / 2 ^ (l + 1)) + 1))%N) by lia.
  split; [|exact Hd]. replace (N.of_nat (q + 1)) with (N.of_nat q + 1)%N by lia.
  rewrite (ones_succ_div _ tau l Hones ltac:(lia)), Hd, sibling_spec.
  set (y := q / 2 ^ (l + 1)). replace (N.of_nat (2 * y + 1) + 1)%N with (2 * N.of_nat (y + 1))%N by lia.
  rewrite N.odd_mul. change (N.odd 2) with false. cbn [andb]. lia.
Qed.
Lemma next_at : sibling (N.of_nat (q + 1) / 2 ^ N.of_nat tau) = (N.of_nat q / 2 ^ N.of_nat tau)%N /\
  (N.of_nat (q + 1) / 2 ^ N.of_nat tau = N.of_nat q / 2 ^ N.of_nat tau + 1)%N.
Proof.
  replace (N.of_nat (q + 1)) with (N.of_nat q + 1)%N by lia.
  rewrite (ones_succ_div _ tau tau Hones ltac:(lia)). split; [|reflexivity]. rewrite sibling_spec.
  rewrite testbit_odd in Hbit. set (y := (N.of_nat q / 2 ^ N.of_nat tau)%N) in *.
  rewrite N.add_1_r, N.odd_succ, <- N.negb_odd, Hbit. cbn [negb]. lia.
Qed.
Lemma next_high l : tau < l -> (N.of_nat (q + 1) / 2 ^ N.of_nat l = N.of_nat q / 2 ^ N.of_nat l)%N.
Proof. intros Hl. replace (N.of_nat (q + 1)) with (N.of_nat q + 1)%N by lia. apply (ones_stop _ tau Hones Hbit). lia. Qed.
Lemma next_mod j : (q + 1) mod 2 ^ (j + 1) = 0 <-> j < tau.
Proof.
  split.
  - intros Hm. destruct (Nat.lt_ge_cases j tau) as [Hlt|Hge]; [exact Hlt|exfalso].
    pose proof (mod0_pow (q + 1) (tau + 1) (j + 1) ltac:(lia) Hm) as Hm'.
    pose proof (testbit_low (q + 1) (tau + 1) tau ltac:(lia) Hm') as Hb. rewrite testbit_odd in Hb.
    rewrite (proj2 next_at) in Hb. rewrite testbit_odd in Hbit. set (y := (N.of_nat q / 2 ^ N.of_nat tau)%N) in *.
    rewrite N.add_1_r, N.odd_succ, <- N.negb_odd, Hbit in Hb. discriminate.
  - intros Hl. apply (mod0_pow (q + 1) (j + 1) tau); [lia|]. now apply ones_nat_mod.
Qed.
Lemma next_tgt j : tau <= j -> tgt (q + 1) j = tgt q j.
Proof.
  intros Hj. unfold tgt. pose proof (next_high (j + 1) ltac:(lia)) as Hh.
  rewrite pow2_of_nat, <- !Nat2N.inj_div in Hh. apply Nat2N.inj in Hh. now rewrite Hh.
Qed.
Lemma next_bound i : i < tau -> tau < H -> 2 * (q / 2 ^ (i + 1)) + 3 < 2 ^ (H - i).
Proof.
  intros Hi Ht. set (y := q / 2 ^ (i + 1)) in *.
  assert (Hyq : 2 ^ (i + 1) * (y + 1) = q + 1).
  { pose proof (proj2 (next_mod i) Hi) as Hm. pose proof (pow2_pos_nat (i + 1)) as Hpp.
    destruct (succ_mod_cases q (2 ^ (i + 1)) Hpp) as [(M1 & M2 & M3)|(M1 & M2 & M3)]; [|lia].
    pose proof (Nat.div_mod (q + 1) (2 ^ (i + 1)) ltac:(lia)) as Hdm. rewrite M2, M3 in Hdm. fold y in Hdm. lia. }
  assert (HP : 2 ^ H = 2 ^ (i + 1) * 2 ^ (H - (i + 1))) by (rewrite <- Nat.pow_add_r; f_equal; lia).
  assert (Hq' := Hq). rewrite HP, <- Hyq in Hq'. apply Nat.mul_lt_mono_pos_l in Hq'; [|apply pow2_pos_nat].
  replace (2 ^ (H - i)) with (2 * 2 ^ (H - (i + 1))) by (rewrite <- Nat.pow_succ_r'; f_equal; lia). lia.
Qed.
Lemma next_row i : i < tau -> H <= 30 -> N.to_nat (u32 (N.shiftr (N.shiftr (N.of_nat q) (N.of_nat i) - 1) 1)) = q / 2 ^ (i + 1).
Proof.
  intros Hi H30. rewrite !N.shiftr_div_pow2. rewrite (proj2 (next_low i Hi)). change (2 ^ 1)%N with 2%N.
  set (y := q / 2 ^ (i + 1)) in *. replace (N.of_nat (2 * y + 1) - 1)%N with (N.of_nat y * 2)%N by lia.
  rewrite N.div_mul by discriminate. unfold u32. rewrite N.mod_small; [lia|].
  assert (Hyq : y <= q) by (apply Nat.div_le_upper_bound; [pose proof (pow2_pos_nat (i + 1)); lia|pose proof (pow2_pos_nat (i + 1)); nia]).
  assert (Hp30 : 2 ^ H <= 2 ^ 30) by (apply Nat.pow_le_mono_r; lia).
  assert (Hb32 : (N.of_nat (2 ^ 30) < 2 ^ 32)%N) by (rewrite <- pow2_of_nat; now vm_compute). lia.
Qed.
Lemma next_start i : i < H -> H <= 30 -> u32 (N.of_nat q + 1 + 3 * 2 ^ N.of_nat i) = N.of_nat (q + 1 + 3 * 2 ^ i).
Proof.
  intros Hi H30. unfold u32. rewrite pow2_of_nat. rewrite N.mod_small; [lia|].
  assert (Hp30 : 2 ^ H <= 2 ^ 30) by (apply Nat.pow_le_mono_r; lia).
  assert (Hi29 : 2 ^ i <= 2 ^ 29) by (apply Nat.pow_le_mono_r; lia).
  assert (Hb32 : (N.of_nat (2 ^ 30) + 3 * N.of_nat (2 ^ 29) < 2 ^ 32)%N) by (rewrite <- !pow2_of_nat; now vm_compute). lia.
Qed.
Lemma next_last i : i < tau -> tau < H -> 2 ^ H <= q + 1 + 3 * 2 ^ i -> 2 ^ (H - i) <= tgt (q + 1) i.
Proof.
  intros Hi Ht Hge. unfold tgt. pose proof (proj2 (next_mod i) Hi) as Hm.
  pose proof (pow2_pos_nat (i + 1)) as Hpp.
  pose proof (Nat.div_mod (q + 1) (2 ^ (i + 1)) ltac:(lia)) as Hdm. rewrite Hm in Hdm.
  set (y := (q + 1) / 2 ^ (i + 1)) in *.
  assert (HP : 2 ^ H = 2 ^ i * 2 ^ (H - i)) by (rewrite <- Nat.pow_add_r; f_equal; lia).
  replace (2 ^ (i + 1)) with (2 * 2 ^ i) in Hdm by (rewrite Nat.add_1_r, Nat.pow_succ_r'; reflexivity).
  rewrite HP, Hdm in Hge.
  assert (Hge' : 2 ^ i * 2 ^ (H - i) <= 2 ^ i * (2 * y + 3)) by lia.
  apply Nat.mul_le_mono_pos_l in Hge'; [|apply pow2_pos_nat]. lia.
Qed.
End Step.

Lemma bds_round_spec q u f base s sub : H <> 0 -> sinv H thc U q u f -> (u = 0 \/ forall i, f i = None) -> q + 1 < 2 ^ H ->
  trav q f base s -> sub_ctx L T sub ->
  exists s', bds_round p s (N.of_nat q) sks seed sub = Ok s' /\ trav (q + 1) (reinit H thc (q + 1) f) base s' /\
    st_next_leaf s' = st_next_leaf s.
Proof.
  intros _ Hi Hu Hq [Hrun Hau Hkp Hrt] (Hs0 & Hs1 & Hs2). pose proof (po_th p Hp) as HH30.
  destruct Hrun as [Hs Hoff Hst Hth].
  pose proof (sh_auth p s Hs) as Hal0.
  unfold bds_round. cbv zeta. rewrite (th_count_ok p Hk), bind_ok.
  destruct (find_tau_spec (N.of_nat q) H 0 (ones_0 _)) as (Ht1 & Ho & Hb). cbn [Nat.add] in *.
  set (tau := find_tau H 0 (N.of_nat q)) in *.
  assert (Htau : tau < H).
  { destruct (Nat.eq_dec tau H) as [He|]; [exfalso|lia]. rewrite He in Ho. unfold ones in Ho.
    rewrite N.div_small in Ho by (rewrite pow2_of_nat; lia). rewrite pow2_of_nat in Ho. lia. }
  specialize (Hb Htau). clearbody tau.
  (* instances that are replaced have completed *)
  assert (Hcompl : forall i, i < tau -> f i = None).
  { intros i Hi'. destruct Hu as [Hu|Hu]; [|apply Hu]. destruct (f i) as [x|] eqn:Hfi; [exfalso|reflexivity].
    apply (sinv_due H thc U HU q u f i x Hi Hfi Hu). now apply (next_mod q tau Hq Ho Hb). }
  (* buf *)
  set (t := (N.of_nat q / 2 ^ N.of_nat tau)%N).
  assert (Hbuf : exists buf, (if 0 <? tau then
                 let* x := rd (st_auth s) ((tau - 1) * n) n in
                 let* y := rd (st_keep s) ((tau - 1) / 2 * n) n in
                 Ok (x ++ y)
               else Ok (uninit (2 * n))) = Ok buf /\
            (0 < tau -> buf = nd (tau - 1) (2 * t)%N ++ nd (tau - 1) (2 * t + 1)%N)).
  { destruct (Nat.ltb_spec 0 tau) as [Hpos|Hz]; [|eexists; split; [reflexivity|lia]].
    rewrite (rd_ck n (st_auth s) (tau - 1) H) by (exact Hal0 || lia). rewrite bind_ok.
    assert (Hk2 : (tau - 1) / 2 < H / 2).
    { apply half_lt. lia. }
    rewrite (rd_ck n (st_keep s) ((tau - 1) / 2) (H / 2)) by (apply (sh_keep p s Hs) || lia). rewrite bind_ok.
    eexists. split; [reflexivity|]. intros _.
    assert (Hbm : N.testbit (N.of_nat q) (N.of_nat (tau - 1)) = true) by (apply (ones_bit _ tau); [exact Ho|lia]).
    rewrite Hau by lia. rewrite Hkp; [|lia|exact Hbm|replace (tau - 1 + 1) with tau by lia; exact Hb].
    pose proof (carry_node (N.of_nat q) (tau - 1) Hbm) as Hc. cbv zeta in Hc. rewrite (S_pred1 tau Hpos) in Hc. fold t in Hc.
    rewrite Hc. f_equal. rewrite sibling_spec, N.odd_add, N.odd_mul. change (N.odd 2) with false. change (N.odd 1) with true. cbn [andb xorb]. f_equal. apply N.add_sub. }
  destruct Hbuf as (buf & Hbeq & Hbuf). rewrite Hbeq, bind_ok. clear Hbeq.
  (* keep *)
  assert (Hkeep : exists s1, (if negb (N.testbit (N.of_nat q) (N.of_nat (tau + 1))) && (tau <? H - 1) then
               let* x := rd (st_auth s) (tau * n) n in
               let* kp := wr (st_keep s) ((tau / 2) * n) x in
               Ok (set_keep s kp)
             else Ok s) = Ok s1 /\ length (st_keep s1) = H / 2 * n /\ s1 = set_keep s (st_keep s1) /\
      (forall l, l + 1 < H -> N.testbit (N.of_nat (q + 1)) (N.of_nat l) = true ->
        N.testbit (N.of_nat (q + 1)) (N.of_nat (l + 1)) = false -> ck n (st_keep s1) (l / 2) = nd l (N.of_nat (q + 1) / 2 ^ N.of_nat l))).
  { assert (Hold : forall l, l + 1 < H -> N.testbit (N.of_nat (q + 1)) (N.of_nat l) = true ->
        N.testbit (N.of_nat (q + 1)) (N.of_nat (l + 1)) = false -> tau <= l /\ N.testbit (N.of_nat q) (N.of_nat (l + 1)) = false /\
        (tau < l -> ck n (st_keep s) (l / 2) = nd l (N.of_nat (q + 1) / 2 ^ N.of_nat l) /\ N.testbit (N.of_nat q) (N.of_nat l) = true)).
    { intros l Hl B1 B2. assert (Hle : tau <= l).
      { destruct (Nat.lt_ge_cases l tau) as [Hlt|]; [exfalso|lia].
        pose proof (proj2 (next_mod q tau Hq Ho Hb l) Hlt) as Hm.
        rewrite (testbit_low (q + 1) (l + 1) l ltac:(lia) Hm) in B1. discriminate. }
      assert (B2' : N.testbit (N.of_nat q) (N.of_nat (l + 1)) = false).
      { rewrite testbit_odd in B2 |- *. rewrite <- (next_high q tau Hq Ho Hb (l + 1)) by lia. exact B2. }
      split; [exact Hle|]. split; [exact B2'|]. intros Hlt.
      rewrite (next_high q tau Hq Ho Hb l Hlt).
      assert (B1' : N.testbit (N.of_nat q) (N.of_nat l) = true).
      { rewrite testbit_odd in B1 |- *. rewrite <- (next_high q tau Hq Ho Hb l) by lia. exact B1. }
      split; [now apply Hkp|exact B1']. }
    assert (Hlast : ck n (st_auth s) tau = nd tau (N.of_nat (q + 1) / 2 ^ N.of_nat tau)).
    { rewrite Hau by exact Htau. f_equal. rewrite (proj2 (next_at q tau Hq Ho Hb)). rewrite sibling_spec.
      rewrite testbit_odd in Hb. rewrite Hb. reflexivity. }
    destruct (negb (N.testbit (N.of_nat q) (N.of_nat (tau + 1))) && (tau <? H - 1)) eqn:Hc.
    - apply andb_true_iff in Hc as [C1 C2]. apply negb_true_iff in C1. apply Nat.ltb_lt in C2.
      assert (Hk2 : forall l, l + 1 < H -> l / 2 < H / 2).
      { intros l Hl. now apply half_lt. }
      rewrite (rd_ck n (st_auth s) tau H) by (exact Hal0 || lia). rewrite bind_ok.
      assert (Hlck : length (ck n (st_auth s) tau) = n) by (rewrite Hlast; apply Hndl).
      rewrite (wr_ck n (st_keep s) (tau / 2) (H / 2)) by (apply (sh_keep p s Hs) || (apply Hk2; lia) || exact Hlck). rewrite bind_ok.
      eexists. split; [reflexivity|]. stc. split; [apply setck_length; (apply (sh_keep p s Hs) || (apply Hk2; lia) || exact Hlck)|].
      split; [reflexivity|]. intros l Hl B1 B2. destruct (Hold l Hl B1 B2) as (O1 & O2 & O3).
      destruct (Nat.eq_dec l tau) as [->|Hn].
      + rewrite (ck_setck_same n _ _ (H / 2)) by (apply (sh_keep p s Hs) || (apply Hk2; lia) || exact Hlck). exact Hlast.
      + destruct (O3 ltac:(lia)) as [O4 O5].
        rewrite (ck_setck_other n _ (tau / 2) (l / 2) (H / 2));
          [exact O4|apply (sh_keep p s Hs)|apply Hk2; lia|apply Hk2; lia|exact Hlck|].
        intros He. assert (Hl1 : l = tau + 1).
        { pose proof (Nat.div_mod l 2 ltac:(lia)). pose proof (Nat.div_mod tau 2 ltac:(lia)).
          pose proof (Nat.mod_upper_bound l 2 ltac:(lia)). pose proof (Nat.mod_upper_bound tau 2 ltac:(lia)). lia. }
        rewrite Hl1 in O5. congruence.
    - exists s. split; [reflexivity|]. split; [apply (sh_keep p s Hs)|]. split; [destruct s; reflexivity|].
      intros l Hl B1 B2. destruct (Hold l Hl B1 B2) as (O1 & O2 & O3).
      destruct (Nat.eq_dec l tau) as [->|Hn]; [exfalso|exact (proj1 (O3 ltac:(lia)))].
      rewrite O2 in Hc. cbn [negb andb] in Hc. apply Nat.ltb_ge in Hc. lia. }
  destruct Hkeep as (s1 & Hkeq & Hkl & Hs1' & Hkp'). rewrite Hkeq, bind_ok. clear Hkeq.
  assert (Es : st_auth s1 = st_auth s /\ st_retain s1 = st_retain s /\ st_treehash s1 = st_treehash s /\ st_stack s1 = st_stack s /\
     st_stackoffset s1 = st_stackoffset s /\ st_stacklevels s1 = st_stacklevels s /\ st_next_leaf s1 = st_next_leaf s)
    by (rewrite Hs1'; repeat split; reflexivity).
  destruct Es as (Ea & Er & Et & Est & Eo & El & En).
  assert (Hsh1 : shape p s1) by (destruct Hs; constructor; rewrite ?Ea, ?Er, ?Et, ?Est, ?El; assumption).
  assert (Hret' : forall j r, H - k <= j -> j < H -> 2 * r + 3 < 2 ^ (H - j) -> ck n (st_retain s1) (ret_off p j + r) = nd j (N.of_nat (2 * r + 3)))
    by (rewrite Er; exact Hrt).
  (* instances at levels at and above tau *)
  assert (Hhigh : forall j i, tau <= j -> th_ok p Hf sks seed L T q f j i -> th_ok p Hf sks seed L T (q + 1) (reinit H thc (q + 1) f) j i).
  { intros j ti Hj Hok. unfold th_ok in *. rewrite (next_tgt q tau Hq Ho Hb j Hj).
    assert (Hre : reinit H thc (q + 1) f j = f j).
    { unfold reinit. replace ((q + 1) mod 2 ^ (j + 1) =? 0) with false; [now rewrite andb_false_r|].
      symmetry. apply Nat.eqb_neq. intros Hm. apply (next_mod q tau Hq Ho Hb) in Hm. lia. }
    rewrite Hre. exact Hok. }
  assert (Hstk : stk p Hf sks seed L T (reinit H thc (q + 1) f) base = stk p Hf sks seed L T f base).
  { unfold stk. f_equal. unfold segs. f_equal. apply map_ext_in. intros i Hi'. apply in_seq in Hi'. unfold seg, reinit.
    destruct ((i <? thc) && ((q + 1) mod 2 ^ (i + 1) =? 0) && (q + 1 + 3 * 2 ^ i <? 2 ^ H)) eqn:Hc; [|reflexivity].
    apply andb_true_iff in Hc as [Hc _]. apply andb_true_iff in Hc as [_ Hc]. apply Nat.eqb_eq in Hc.
    rewrite (Hcompl i) by (now apply (next_mod q tau Hq Ho Hb)).
    apply bst_nil_mod. rewrite Nat.mod_add by (pose proof (pow2_pos_nat i); lia). apply (mod0_pow _ i (i + 1)); [lia|exact Hc]. }
  destruct (Nat.eqb_spec tau 0) as [Hz|Hnz].
  - (* left leaf *)
    destruct (gen_leaf_wots_spec p Hf Hp HH sks seed L T (N.of_nat q)
       (set_ltree_addr (set_type (copy_subtree_addr addr_zero sub) 1) (N.of_nat q))
       (set_ots_addr (set_type (copy_subtree_addr addr_zero sub) 0) (N.of_nat q)))
      as (la' & oa' & h' & Hgl & _ & _); [exact Hsks|exact Hseed|repeat split; assumption|reflexivity|split; [repeat split; assumption|reflexivity]|].
    rewrite Hgl, bind_ok. clear Hgl la' oa' h'.
    change (leaf P sks seed L T (N.of_nat q)) with (nd 0 (N.of_nat q)). rewrite Ea.
    change (wr (st_auth s) 0) with (wr (st_auth s) (0 * n)).
    rewrite (wr_ck n (st_auth s) 0 H) by (exact Hal0 || apply Hndl || lia). rewrite bind_ok.
    eexists. split; [reflexivity|]. split; [|stc; exact En].
    constructor; stc.
    + constructor; stc.
      * destruct Hsh1. constructor; stc; try assumption. apply setck_length; (exact Hal0 || apply Hndl || lia).
      * rewrite Eo, Hstk. exact Hoff.
      * rewrite Est, El, Hstk. exact Hst.
      * rewrite Et. intros j ti Hj. apply Hhigh; [lia|]. now apply Hth.
    + intros l Hl. destruct (Nat.eq_dec l 0) as [->|Hn].
      * rewrite (ck_setck_same n _ _ H) by (exact Hal0 || apply Hndl || lia).
        pose proof (proj1 (next_at q tau Hq Ho Hb)) as Hna. rewrite Hz in Hna. rewrite Hna.
        change (2 ^ N.of_nat 0)%N with 1%N. now rewrite N.div_1_r.
      * rewrite (ck_setck_other n _ _ _ H) by (exact Hal0 || apply Hndl || lia).
        rewrite (next_high q tau Hq Ho Hb l) by lia. now apply Hau.
    + exact Hkp'.
    + exact Hret'.
  - (* tau > 0 *)
    specialize (Hbuf ltac:(lia)). rewrite Hbuf.
    replace (N.shiftr (N.of_nat q) (N.of_nat tau)) with t by (unfold t; now rewrite N.shiftr_div_pow2).
    destruct (hash_nodes p Hf Hp HH sks seed L T Hseed (tau - 1) t (set_type (copy_subtree_addr addr_zero sub) 2)) as [a' [Hthh _]];
      [repeat split; assumption|].
    rewrite Hthh, bind_ok. clear Hthh. rewrite S_pred1 by lia. rewrite Ea, Et.
    rewrite (wr_ck n (st_auth s) tau H) by (exact Hal0 || apply Hndl || lia). rewrite bind_ok.
    set (au1 := setck n (st_auth s) tau (nd tau t)).
    assert (Hau1 : length au1 = H * n) by (apply setck_length; (exact Hal0 || apply Hndl || lia)).
    match goal with |- context [forN tau 0 ?body au1] =>
      destruct (forN_inv (fun i au => length au = H * n /\
         (forall l, l < H -> ck n au l = if l <? i then nd l (sibling (N.of_nat (q + 1) / 2 ^ N.of_nat l)) else ck n au1 l))
         tau 0 body au1) as [au [Heq [Hal Hac]]] end.
    { intros i au Hir [Hal Hac]. cbn [Nat.add] in Hir. assert (Hita : i < tau) by exact (proj2 Hir). clear Hir.
      assert (HiH : i < H) by exact (Nat.lt_trans _ _ _ Hita Htau).
      destruct (next_low q tau Hq Ho i Hita) as [Hsib _]. pose proof (next_row q tau Hq Ho i Hita ltac:(lia)) as Hrow.
      assert (Hx : forall x, length x = n -> x = nd i (sibling (N.of_nat (q + 1) / 2 ^ N.of_nat i)) ->
         exists t', wr au (i * n) x = Ok t' /\ length t' = H * n /\
          (forall l, l < H -> ck n t' l = if l <? S i then nd l (sibling (N.of_nat (q + 1) / 2 ^ N.of_nat l)) else ck n au1 l)).
      { intros x Hxl Hx. exists (setck n au i x). split; [apply (wr_ck n au i H); (assumption || lia)|].
        split; [apply setck_length; (assumption || lia)|]. intros l Hl. destruct (Nat.eq_dec i l) as [<-|Hn].
        - rewrite (ck_setck_same n _ _ H) by (assumption || lia). replace (i <? S i) with true by (symmetry; apply Nat.ltb_lt; lia). exact Hx.
        - rewrite (ck_setck_other n _ _ _ H) by (assumption || lia). rewrite Hac by exact Hl.
          destruct (Nat.ltb_spec l i); destruct (Nat.ltb_spec l (S i)); (reflexivity || lia). }
      pose proof (next_bound q tau Hq Ho Hb i Hita Htau) as Hq2.
      destruct (Nat.ltb_spec i thc) as [Hit|Hit].
      - destruct (nth_error (st_treehash s) i) as [ti|] eqn:Hti; [|apply nth_error_None in Hti; rewrite (sh_th p s Hs) in Hti; lia].
        rewrite (rdc_some _ _ ti Hti), bind_ok.
        rewrite rd_all by (auto; symmetry; apply (sh_nodes p s Hs i ti Hti)). rewrite bind_ok.
        apply Hx; [apply (sh_nodes p s Hs i ti Hti)|].
        destruct (Hth i ti Hti) as (_ & _ & _ & T4). rewrite (Hcompl i ltac:(lia)) in T4. destruct T4 as [_ T4].
        rewrite Hsib. unfold tgt in T4. replace (2 * (q / 2 ^ (i + 1) + 1) + 1) with (2 * (q / 2 ^ (i + 1)) + 3) in T4 by lia.
        apply T4. exact Hq2.
      - rewrite shl1_int_ok, bind_ok by lia. rewrite pow2_to_nat.
        rewrite Hrow, Er. change (2 ^ (H - 1 - i) + i - H) with (ret_off p i).
        assert (Hrr : ret_off p i + q / 2 ^ (i + 1) < rcount p) by (apply (ret_row p Hk ltac:(lia)); [unfold thcount in Hit; lia|lia|exact Hq2]).
        rewrite (rd_ck n (st_retain s) _ (rcount p)) by (apply (sh_retain p s Hs) || exact Hrr). rewrite bind_ok.
        apply Hx; [apply (ck_length n _ _ (rcount p)); (apply (sh_retain p s Hs) || exact Hrr)|].
        rewrite Hsib. apply Hrt; [unfold thcount in Hit; lia|lia|exact Hq2]. }
    { split; [exact Hau1|]. intros l Hl. reflexivity. }
    cbn [Nat.add] in Hac. rewrite Heq, bind_ok. clear Heq. stc. rewrite Et.
    unfold shl1_uint. replace (H <? 32) with true by (symmetry; apply Nat.ltb_lt; lia). rewrite bind_ok.
    match goal with |- context [forN (Nat.min tau thc) 0 ?body ?s0] =>
      destruct (forN_inv (fun i ths => length ths = thc /\
         (forall j tj, nth_error ths j = Some tj -> length (th_node tj) = n /\
            (if j <? i then th_ok p Hf sks seed L T (q + 1) (reinit H thc (q + 1) f) j tj else th_ok p Hf sks seed L T q f j tj)))
         (Nat.min tau thc) 0 body s0) as [ths [Heq [Hthl Hthp]]] end.
    { intros i ths Hir [Hl Ha]. cbn [Nat.add] in Hir. assert (Hit : i < thc) by lia. assert (Hita : i < tau) by lia.
      rewrite shl1_int_ok, bind_ok by lia.
      pose proof (next_start q tau Hq i ltac:(lia) ltac:(lia)) as Hst'.
      rewrite Hst'.
      assert (Hcond : (N.of_nat (q + 1 + 3 * 2 ^ i) <? 2 ^ N.of_nat H)%N = (q + 1 + 3 * 2 ^ i <? 2 ^ H)).
      { rewrite pow2_of_nat. destruct (Nat.ltb_spec (q + 1 + 3 * 2 ^ i) (2 ^ H)); [apply N.ltb_lt|apply N.ltb_ge]; lia. }
      rewrite Hcond.
      assert (Hre : reinit H thc (q + 1) f i = if q + 1 + 3 * 2 ^ i <? 2 ^ H then Some (q + 1 + 3 * 2 ^ i) else None).
      { unfold reinit. replace (i <? thc) with true by (symmetry; now apply Nat.ltb_lt).
        replace ((q + 1) mod 2 ^ (i + 1) =? 0) with true by (symmetry; apply Nat.eqb_eq; now apply (next_mod q tau Hq Ho Hb)).
        cbn [andb]. rewrite (Hcompl i Hita). reflexivity. }
      assert (Hmod0 : (q + 1 + 3 * 2 ^ i) mod 2 ^ i = 0).
      { rewrite Nat.mod_add by (pose proof (pow2_pos_nat i); lia). apply (mod0_pow _ i (i + 1)); [lia|]. now apply (next_mod q tau Hq Ho Hb). }
      destruct (Nat.ltb_spec (q + 1 + 3 * 2 ^ i) (2 ^ H)) as [Hlt|Hge].
      - destruct (nth_error ths i) as [ti|] eqn:Hti; [|apply nth_error_None in Hti; lia].
        rewrite (rdc_some _ _ ti Hti), bind_ok, wrc_ok by lia. eexists. split; [reflexivity|]. split; [now rewrite upd_length|].
        intros j tj Hj. destruct (Nat.eq_dec i j) as [<-|Hn].
        + rewrite nth_error_upd_same in Hj by lia. injection Hj as <-. stc. split; [exact (proj1 (Ha i ti Hti))|].
          replace (i <? S i) with true by (symmetry; apply Nat.ltb_lt; lia). unfold th_ok. stc. rewrite Hre.
          assert (Hbn : bst nd i 0 (N.of_nat (q + 1 + 3 * 2 ^ i)) = []) by (now apply bst_nil_mod).
          rewrite Hbn. split; [lia|]. split; [|split; [lia|repeat split]].
          change (N.of_nat (q + 1 + 3 * 2 ^ i) < 2 ^ 32)%N. rewrite <- Hst'. unfold u32. apply N.mod_lt. discriminate.
        + rewrite nth_error_upd_other in Hj by exact Hn. destruct (Ha j tj Hj) as [A1 A2]. split; [exact A1|].
          destruct (Nat.ltb_spec j i); destruct (Nat.ltb_spec j (S i)); (exact A2 || lia).
      - eexists. split; [reflexivity|]. split; [exact Hl|]. intros j tj Hj. destruct (Ha j tj Hj) as [A1 A2]. split; [exact A1|].
        destruct (Nat.ltb_spec j i); destruct (Nat.ltb_spec j (S i)); try (exact A2 || lia).
        assert (j = i) by lia. subst j. unfold th_ok in *. rewrite (Hcompl i Hita) in A2. rewrite Hre.
        destruct A2 as (B1 & B2 & B3 & B4 & B5). split; [exact B1|]. split; [exact B2|]. split; [exact B3|]. split; [exact B4|].
        intros Htg. exfalso. pose proof (next_last q tau Hq Ho Hb i Hita Htau Hge). lia. }
    { split; [apply (sh_th p s Hs)|]. intros j tj Hj. split; [exact (sh_nodes p s Hs j tj Hj)|]. cbn [Nat.ltb Nat.leb].
      apply Hth. exact Hj. }
    cbn [Nat.add] in Hthp. rewrite Heq, bind_ok. clear Heq. eexists. split; [reflexivity|]. split; [|stc; exact En].
    constructor; stc.
    + constructor; stc.
      * destruct Hsh1. constructor; stc; try assumption. intros j tj Hj. exact (proj1 (Hthp j tj Hj)).
      * rewrite Eo, Hstk. exact Hoff.
      * rewrite Est, El, Hstk. exact Hst.
      * intros j tj Hj. destruct (Hthp j tj Hj) as [A1 A2]. destruct (Nat.ltb_spec j (Nat.min tau thc)) as [_|Hge]; [exact A2|].
        apply Hhigh; [|exact A2]. assert (j < length ths) by (apply nth_error_Some; congruence). lia.
    + intros l Hl. rewrite Hac by exact Hl. destruct (Nat.ltb_spec l tau) as [_|Hge]; [reflexivity|].
      unfold au1. destruct (Nat.eq_dec tau l) as [<-|Hn].
      * rewrite (ck_setck_same n _ _ H) by (exact Hal0 || apply Hndl || lia).
        rewrite (proj1 (next_at q tau Hq Ho Hb)). reflexivity.
      * rewrite (ck_setck_other n _ _ _ H) by (exact Hal0 || apply Hndl || lia).
        rewrite (next_high q tau Hq Ho Hb l) by lia. now apply Hau.
    + exact Hkp'.
    + exact Hret'.
Qed.
End One.
End Refine.
