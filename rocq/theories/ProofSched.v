(** The update schedule of the BDS traversal: an abstract machine that keeps, for every
    level, the next leaf of a running treehash instance ([None]: completed), and the proof
    that every instance completes before its node is needed. *)
From Verif Require Import Base Lib.

Fixpoint sum (k : nat) (g : nat -> nat) : nat :=
  match k with O => 0 | S k' => sum k' g + g k' end.
Lemma sum_le k g1 g2 : (forall i, i < k -> g1 i <= g2 i) -> sum k g1 <= sum k g2.
Proof. induction k as [|k IH]; intros Hl; cbn [sum]; [lia|]. pose proof (Hl k ltac:(lia)). pose proof (IH ltac:(intros; apply Hl; lia)). lia. Qed.
Lemma sum_ext k g1 g2 : (forall i, i < k -> g1 i = g2 i) -> sum k g1 = sum k g2.
Proof. induction k as [|k IH]; intros Hl; cbn [sum]; [lia|]. rewrite (Hl k) by lia. rewrite IH; [lia|]. intros; apply Hl; lia. Qed.
Lemma sum_zero k g : (forall i, i < k -> g i = 0) -> sum k g = 0.
Proof. induction k as [|k IH]; intros Hl; cbn [sum]; [lia|]. rewrite (Hl k) by lia. rewrite IH; [lia|]. intros; apply Hl; lia. Qed.
Lemma sum_pick k g x : x < k -> g x <= sum k g.
Proof. induction k as [|k IH]; intros Hx; cbn [sum]; [lia|]. destruct (Nat.eq_dec x k) as [->|Hn]; [lia|]. pose proof (IH ltac:(lia)). lia. Qed.
Lemma sum_change k g1 g2 x : x < k -> (forall i, i < k -> i <> x -> g1 i = g2 i) -> sum k g1 + g2 x = sum k g2 + g1 x.
Proof.
  induction k as [|k IH]; intros Hx Hl; cbn [sum]; [lia|].
  destruct (Nat.eq_dec x k) as [->|Hn].
  - rewrite (sum_ext k g1 g2); [lia|]. intros; apply Hl; lia.
  - rewrite (Hl k) by lia. pose proof (IH ltac:(lia) ltac:(intros; apply Hl; lia)). lia.
Qed.
Lemma sum_add k g1 g2 : sum k (fun i => g1 i + g2 i) = sum k g1 + sum k g2.
Proof. induction k as [|k IH]; cbn [sum]; [lia|]. rewrite IH. lia. Qed.
Lemma sum_pow k : sum k (fun i => 2 ^ i) = 2 ^ k - 1.
Proof. induction k as [|k IH]; cbn [sum]; [reflexivity|]. rewrite IH, Nat.pow_succ_r'. pose proof (Nat.pow_nonzero 2 k). lia. Qed.

Lemma pow2_pos_nat k : 0 < 2 ^ k.
Proof. pose proof (Nat.pow_nonzero 2 k). lia. Qed.
Lemma mod_mod_pow a i j : i <= j -> (a mod 2 ^ j) mod 2 ^ i = a mod 2 ^ i.
Proof.
  intros Hij. replace (2 ^ j) with (2 ^ i * 2 ^ (j - i)) by (rewrite <- Nat.pow_add_r; f_equal; lia).
  pose proof (pow2_pos_nat i). pose proof (pow2_pos_nat (j - i)).
  rewrite Nat.mod_mul_r by lia. rewrite Nat.mul_comm, Nat.mod_add by lia. apply Nat.mod_mod. lia.
Qed.
Lemma mod0_pow a i j : i <= j -> a mod 2 ^ j = 0 -> a mod 2 ^ i = 0.
Proof. intros Hij H0. rewrite <- (mod_mod_pow a i j Hij), H0. apply Nat.mod_0_l. pose proof (pow2_pos_nat i). lia. Qed.
(** increments modulo 2^j *)
Lemma succ_mod_cases a m : 0 < m -> (a mod m = m - 1 /\ (a + 1) mod m = 0 /\ (a + 1) / m = a / m + 1) \/
  (a mod m < m - 1 /\ (a + 1) mod m = a mod m + 1 /\ (a + 1) / m = a / m).
Proof.
  intros Hm. pose proof (Nat.div_mod a m ltac:(lia)) as Hd. pose proof (Nat.mod_upper_bound a m ltac:(lia)) as Hb.
  destruct (Nat.eq_dec (a mod m) (m - 1)) as [He|He].
  - left. split; [exact He|]. assert (Hq : a + 1 = (a / m + 1) * m) by nia.
    rewrite Hq. split; [apply Nat.mod_mul; lia|apply Nat.div_mul; lia].
  - right. split; [lia|]. split.
    + symmetry. apply (Nat.mod_unique _ _ (a / m)); lia.
    + symmetry. apply (Nat.div_unique _ _ _ (a mod m + 1)); lia.
Qed.

Section Sched.
Variables (Ht thc U : nat).     (* tree height, number of instances, updates per round *)
Hypothesis HU : Nat.min thc (Ht - 2) <= 2 * U.

Definition sst := nat -> option nat.
Definition rem (f : sst) (i : nat) : nat := match f i with None => 0 | Some x => 2 ^ i - x mod 2 ^ i end.
Definition ov (j x : nat) : nat := if x mod 2 ^ j =? 0 then 0 else 2 ^ j - x mod 2 ^ j.
Definition ovs (f : sst) (j i : nat) : nat :=
  if j <? i then match f i with None => 0 | Some x => ov j x end else 0.
(** the next leaf number at which level j is re-initialised *)
Definition due (j q : nat) : nat := (q / 2 ^ (j + 1) + 1) * 2 ^ (j + 1).
Definition fut (j q : nat) : nat :=
  sum j (fun i => 2 ^ i * (due j q / 2 ^ (i + 1) - 1 - q / 2 ^ (i + 1))).

Record sinv (q u : nat) (f : sst) : Prop := mkSinv {
  si_dom : forall i x, f i = Some x -> i < thc /\ i + 3 <= Ht;
  si_lt : forall i x, f i = Some x -> x < 2 ^ Ht;
  si_tgt : forall i x, f i = Some x -> x / 2 ^ i = 2 * (q / 2 ^ (i + 1) + 1) + 1;
  si_nest : forall t i x y, t < i -> f t = Some x -> f i = Some y -> x mod 2 ^ t <> 0 -> y mod 2 ^ t = 0;
  si_dead : forall j x, f j = Some x ->
    sum (S j) (rem f) + sum thc (ovs f j) + fut j q <= u + U * (due j q - q - 1) }.

(** the instance the code selects *)
Definition chosen (f : sst) (x : nat) : Prop :=
  (exists e, f x = Some e /\ e mod 2 ^ x <> 0 /\
     (forall t e', t < x -> f t = Some e' -> e' mod 2 ^ t = 0) /\
     (forall t e', f t = Some e' -> e' mod 2 ^ t = 0 -> e mod 2 ^ t <> 0)) \/
  (exists e, f x = Some e /\ e mod 2 ^ x = 0 /\
     (forall t e', t < x -> f t = Some e' -> e' mod 2 ^ t <> 0) /\
     (forall t e', f t = Some e' -> e' mod 2 ^ t <> 0 -> e' mod 2 ^ x = 0)).
Definition sstep (f : sst) (x : nat) : sst := fun i =>
  if i =? x then
    match f x with
    | Some e => if (e + 1) mod 2 ^ x =? 0 then None else Some (e + 1)
    | None => None
    end
  else f i.

Lemma rem_pos f j x : f j = Some x -> 0 < rem f j.
Proof. intros Hj. unfold rem. rewrite Hj. pose proof (Nat.mod_upper_bound x (2 ^ j) ltac:(pose proof (pow2_pos_nat j); lia)). lia. Qed.

Lemma rem_step f x e : f x = Some e -> rem (sstep f x) x + 1 = rem f x.
Proof.
  intros Hx. unfold rem, sstep. rewrite Nat.eqb_refl, Hx.
  destruct (succ_mod_cases e (2 ^ x) (pow2_pos_nat x)) as [(H1 & H2 & _)|(H1 & H2 & _)]; rewrite H2.
  - cbn [Nat.eqb]. pose proof (pow2_pos_nat x). lia.
  - replace (e mod 2 ^ x + 1 =? 0) with false by (symmetry; apply Nat.eqb_neq; lia). lia.
Qed.
Lemma sstep_other f x i : i <> x -> sstep f x i = f i.
Proof. intros Hn. unfold sstep. now replace (i =? x) with false by (symmetry; now apply Nat.eqb_neq). Qed.


Lemma chosen_lower f x j e y : chosen f x -> f x = Some e -> f j = Some y -> j < x -> e mod 2 ^ j <> 0.
Proof.
  intros [(e0 & He & H1 & H2 & H3)|(e0 & He & H1 & H2 & H3)] Hx Hj Hlt; rewrite He in Hx; injection Hx as ->.
  - apply (H3 j y Hj). now apply (H2 j).
  - exfalso. pose proof (H2 j y Hlt Hj) as Hn. apply Hn. apply (mod0_pow y j x); [lia|]. now apply (H3 j).
Qed.

Lemma work_step f x e j y : chosen f x -> f x = Some e -> f j = Some y -> x < thc ->
  sum (S j) (rem (sstep f x)) + sum thc (ovs (sstep f x) j) + 1 <= sum (S j) (rem f) + sum thc (ovs f j).
Proof.
  intros Hc Hx Hj Hxt. destruct (Nat.le_gt_cases x j) as [Hle|Hgt].
  - pose proof (sum_change (S j) (rem f) (rem (sstep f x)) x ltac:(lia)) as Hs.
    rewrite (sum_ext thc (ovs (sstep f x) j) (ovs f j)).
    + pose proof (rem_step f x e Hx) as Hr. pose proof (rem_pos f x e Hx).
      assert (Hs' : sum (S j) (rem f) + rem (sstep f x) x = sum (S j) (rem (sstep f x)) + rem f x).
      { apply Hs. intros i _ Hn. unfold rem. now rewrite sstep_other. }
      lia.
    + intros i _. unfold ovs. destruct (j <? i) eqn:Hji; [|reflexivity]. apply Nat.ltb_lt in Hji.
      now rewrite sstep_other by lia.
  - pose proof (chosen_lower f x j e y Hc Hx Hj Hgt) as Hn.
    rewrite (sum_ext (S j) (rem (sstep f x)) (rem f)).
    2:{ intros i Hi. unfold rem. now rewrite sstep_other by lia. }
    assert (Hs : sum thc (ovs f j) + ovs (sstep f x) j x = sum thc (ovs (sstep f x) j) + ovs f j x).
    { apply sum_change; [exact Hxt|]. intros i _ Hin. unfold ovs. now rewrite sstep_other. }
    assert (Ho : ovs (sstep f x) j x + 1 <= ovs f j x); [|lia].
    unfold ovs. replace (j <? x) with true by (symmetry; now apply Nat.ltb_lt).
    unfold sstep. rewrite Nat.eqb_refl, Hx. unfold ov at 2.
    replace (e mod 2 ^ j =? 0) with false by (symmetry; now apply Nat.eqb_neq).
    pose proof (Nat.mod_upper_bound e (2 ^ j) ltac:(pose proof (pow2_pos_nat j); lia)) as Hb.
    destruct ((e + 1) mod 2 ^ x =? 0); [lia|]. unfold ov.
    destruct (succ_mod_cases e (2 ^ j) (pow2_pos_nat j)) as [(M1 & M2 & _)|(M1 & M2 & _)]; rewrite M2.
    + cbn [Nat.eqb]. lia.
    + replace (e mod 2 ^ j + 1 =? 0) with false by (symmetry; apply Nat.eqb_neq; lia). lia.
Qed.

Lemma sstep_sinv q u f x : sinv q u f -> chosen f x -> sinv q (u - 1) (sstep f x).
Proof.
  intros Hi Hc.
  assert (He : exists e, f x = Some e) by (destruct Hc as [(e & He & _)|(e & He & _)]; eauto).
  destruct He as [e He].
  assert (Hsx : sstep f x x = if (e + 1) mod 2 ^ x =? 0 then None else Some (e + 1))
    by (unfold sstep; rewrite Nat.eqb_refl, He; reflexivity).
  pose proof (si_dom _ _ _ Hi _ _ He) as [Hxt Hx3].
  pose proof (pow2_pos_nat x) as Hpx.
  assert (Hpend : forall i y, sstep f x i = Some y -> (i <> x /\ f i = Some y) \/
            (i = x /\ y = e + 1 /\ (e + 1) mod 2 ^ x <> 0)).
  { intros i y Hy. destruct (Nat.eq_dec i x) as [->|Hn].
    - right. rewrite Hsx in Hy. destruct ((e + 1) mod 2 ^ x =? 0) eqn:Ez; [discriminate|]. injection Hy as <-.
      apply Nat.eqb_neq in Ez. auto.
    - left. rewrite sstep_other in Hy by exact Hn. auto. }
  assert (Hold : forall i y, sstep f x i = Some y -> exists z, f i = Some z).
  { intros i y Hy. apply Hpend in Hy as [(_ & Hy)|(-> & _)]; eauto. }
  constructor.
  - intros i y Hy. apply Hold in Hy as [z Hz]. eapply si_dom; eauto.
  - intros i y Hy. apply Hpend in Hy as [(_ & Hy)|(-> & -> & Hn)]; [eapply si_lt; eauto|].
    pose proof (si_lt _ _ _ Hi _ _ He) as Hlt. destruct (Nat.eq_dec (e + 1) (2 ^ Ht)) as [Heq|]; [|lia].
    exfalso. apply Hn. rewrite Heq. apply (mod0_pow _ x Ht); [lia|]. apply Nat.mod_same. pose proof (pow2_pos_nat Ht). lia.
  - intros i y Hy. apply Hpend in Hy as [(_ & Hy)|(-> & -> & Hn)]; [eapply si_tgt; eauto|].
    rewrite <- (si_tgt _ _ _ Hi _ _ He).
    destruct (succ_mod_cases e (2 ^ x) Hpx) as [(M1 & M2 & M3)|(M1 & M2 & M3)]; [congruence|exact M3].
  - intros t i y z Hti Hy Hz Hm. pose proof Hy as Hy0. pose proof Hz as Hz0.
    apply Hpend in Hy as [(Hnt & Hy)|(-> & -> & Hn)].
    + apply Hpend in Hz as [(Hni & Hz)|(-> & -> & Hn)]; [eapply si_nest; eauto|].
      exfalso. destruct Hc as [(e0 & He0 & H1 & H2 & H3)|(e0 & He0 & H1 & H2 & H3)].
      * apply Hm. now apply (H2 t).
      * apply Hm. apply (mod0_pow y t x); [lia|]. now apply (H3 t).
    + apply Hpend in Hz as [(Hni & Hz)|(-> & _)]; [|lia].
      destruct (Nat.eq_dec (e mod 2 ^ x) 0) as [E0|E0]; [|eapply si_nest; eauto].
      destruct Hc as [(e0 & He0 & H1 & H2 & H3)|(e0 & He0 & H1 & H2 & H3)];
        rewrite He in He0; injection He0 as <-; [congruence|].
      destruct (Nat.eq_dec (z mod 2 ^ i) 0) as [Z0|Z0]; [apply (mod0_pow z x i); [lia|exact Z0]|].
      now apply (H3 i).
  - intros j y Hy. apply Hold in Hy as [z Hz].
    pose proof (si_dead _ _ _ Hi _ _ Hz). pose proof (work_step f x e j z Hc He Hz Hxt). lia.
Qed.

(** ** The next round: bds_round moves from leaf q - 1 to leaf q *)
Definition reinit (q : nat) (f : sst) : sst := fun i =>
  if (i <? thc) && (q mod 2 ^ (i + 1) =? 0) && (q + 3 * 2 ^ i <? 2 ^ Ht) then Some (q + 3 * 2 ^ i) else f i.

(** every instance of a level that is re-initialised has completed *)
Lemma sinv_due q u f j x : sinv q u f -> f j = Some x -> u = 0 -> (q + 1) mod 2 ^ (j + 1) <> 0.
Proof.
  intros Hi Hj -> Hm. pose proof (si_dead _ _ _ Hi _ _ Hj) as Hd.
  assert (due j q = q + 1).
  { unfold due. pose proof (pow2_pos_nat (j + 1)).
    destruct (succ_mod_cases q (2 ^ (j + 1)) ltac:(lia)) as [(M1 & M2 & M3)|(M1 & M2 & M3)]; [|lia].
    rewrite <- M3. pose proof (Nat.div_mod (q + 1) (2 ^ (j + 1)) ltac:(lia)). lia. }
  cbn [sum] in Hd. pose proof (rem_pos f j x Hj). rewrite H in Hd. replace (q + 1 - q - 1) with 0 in Hd by lia. lia.
Qed.

Lemma due_same j q : (q + 1) mod 2 ^ (j + 1) <> 0 -> due j (q + 1) = due j q.
Proof.
  intros Hn. unfold due. pose proof (pow2_pos_nat (j + 1)).
  destruct (succ_mod_cases q (2 ^ (j + 1)) ltac:(lia)) as [(M1 & M2 & M3)|(M1 & M2 & M3)]; [lia|]. now rewrite M3.
Qed.
Lemma due_gt j q : q + 1 <= due j q.
Proof.
  unfold due. pose proof (pow2_pos_nat (j + 1)). pose proof (Nat.div_mod q (2 ^ (j + 1)) ltac:(lia)).
  pose proof (Nat.mod_upper_bound q (2 ^ (j + 1)) ltac:(lia)). lia.
Qed.

(** work that appears in the next round is taken from the future work *)
Lemma fut_step j q : (q + 1) mod 2 ^ (j + 1) <> 0 ->
  fut j (q + 1) + sum j (fun i => if (q + 1) mod 2 ^ (i + 1) =? 0 then 2 ^ i else 0) = fut j q.
Proof.
  intros Hn. unfold fut. rewrite <- sum_add. apply sum_ext. intros i Hi.
  rewrite due_same by exact Hn.
  pose proof (pow2_pos_nat (i + 1)) as Hp.
  assert (Hdiv : (q + 1) / 2 ^ (i + 1) + 1 <= due j q / 2 ^ (i + 1)).
  { assert (Hq : q + 2 <= due j q).
    { pose proof (due_gt j q). destruct (Nat.eq_dec (due j q) (q + 1)) as [Hq|Hq]; [|lia]. exfalso. apply Hn.
      rewrite <- Hq. unfold due. apply Nat.mod_mul. pose proof (pow2_pos_nat (j + 1)). lia. }
    assert (Hm : due j q = due j q / 2 ^ (i + 1) * 2 ^ (i + 1)).
    { assert (due j q mod 2 ^ (i + 1) = 0).
      { apply (mod0_pow _ (i + 1) (j + 1)); [lia|]. apply Nat.mod_mul. pose proof (pow2_pos_nat (j + 1)). lia. }
      pose proof (Nat.div_mod (due j q) (2 ^ (i + 1)) ltac:(lia)). lia. }
    assert ((q + 1) / 2 ^ (i + 1) < due j q / 2 ^ (i + 1)); [|lia].
    apply Nat.div_lt_upper_bound; lia. }
  destruct (succ_mod_cases q (2 ^ (i + 1)) Hp) as [(M1 & M2 & M3)|(M1 & M2 & M3)].
  - rewrite M2. cbn [Nat.eqb]. rewrite M3 in *.
    replace (due j q / 2 ^ (i + 1) - 1 - q / 2 ^ (i + 1)) with (S (due j q / 2 ^ (i + 1) - 1 - (q / 2 ^ (i + 1) + 1))) by lia.
    rewrite Nat.mul_succ_r. lia.
  - rewrite M2. replace (q mod 2 ^ (i + 1) + 1 =? 0) with false by (symmetry; apply Nat.eqb_neq; lia).
    rewrite M3. lia.
Qed.

(** at most one instance above level j is inside a block of 2^j leaves *)
Lemma over_bound f j q u : sinv q u f -> sum thc (ovs f j) <= 2 ^ j - 1.
Proof.
  intros Hi.
  assert (Hone : forall i, ovs f j i <= 2 ^ j - 1).
  { intros i. unfold ovs. destruct (j <? i); [|lia]. destruct (f i) as [x|]; [|lia]. unfold ov.
    destruct (x mod 2 ^ j =? 0) eqn:E0; [lia|]. apply Nat.eqb_neq in E0. lia. }
  assert (Hk : forall k, sum k (ovs f j) <= 2 ^ j - 1 /\
     ((exists i, i < k /\ ovs f j i <> 0) \/ sum k (ovs f j) = 0)).
  { induction k as [|k [IH1 IH2]]; cbn [sum]; [split; [lia|auto]|].
    destruct (Nat.eq_dec (ovs f j k) 0) as [E0|E0].
    - rewrite E0, Nat.add_0_r. split; [exact IH1|]. destruct IH2 as [(i & Hik & Hv)|IH2]; [left; exists i; split; [lia|exact Hv]|auto].
    - destruct IH2 as [(i & Hik & Hv)|IH2].
      + exfalso. apply E0. unfold ovs in Hv |- *.
        destruct (j <? i) eqn:Eji; [|congruence]. apply Nat.ltb_lt in Eji.
        replace (j <? k) with true by (symmetry; apply Nat.ltb_lt; lia).
        destruct (f i) as [x|] eqn:Ei; [|congruence]. destruct (f k) as [y|] eqn:Ek; [|reflexivity].
        unfold ov in Hv |- *. destruct (x mod 2 ^ j =? 0) eqn:Ex; [congruence|]. apply Nat.eqb_neq in Ex.
        assert (Hy : y mod 2 ^ i = 0).
        { apply (si_nest _ _ _ Hi i k x y Hik Ei Ek). intros Hx. apply Ex. now apply (mod0_pow x j i); [lia|]. }
        rewrite (mod0_pow y j i) by (lia || exact Hy). reflexivity.
      + rewrite IH2. split; [apply Hone|]. left. exists k. split; [lia|exact E0]. }
  apply Hk.
Qed.

Lemma fut_init j q : q mod 2 ^ (j + 1) = 0 -> fut j q + (2 ^ j - 1) = j * 2 ^ j.
Proof.
  intros Hq. rewrite <- sum_pow. unfold fut. rewrite <- sum_add.
  rewrite (sum_ext j _ (fun _ => 2 ^ j)).
  - clear. generalize (2 ^ j) as m. intros m. induction j as [|j IH]; cbn [sum]; [reflexivity|]. rewrite IH. lia.
  - intros i Hi. set (c := q / 2 ^ (j + 1)).
    assert (Hqc : q = (c * 2 ^ (j - i)) * 2 ^ (i + 1)).
    { rewrite <- Nat.mul_assoc, <- Nat.pow_add_r. replace (j - i + (i + 1)) with (j + 1) by lia.
      pose proof (pow2_pos_nat (j + 1)). pose proof (Nat.div_mod q (2 ^ (j + 1)) ltac:(lia)). subst c. lia. }
    assert (Hd : due j q = ((c + 1) * 2 ^ (j - i)) * 2 ^ (i + 1)).
    { unfold due. fold c. rewrite <- Nat.mul_assoc, <- Nat.pow_add_r. do 2 f_equal. lia. }
    pose proof (pow2_pos_nat (i + 1)). rewrite Hd. rewrite Nat.div_mul by lia.
    replace (q / 2 ^ (i + 1)) with (c * 2 ^ (j - i))
      by (apply (Nat.div_unique _ _ _ 0); [exact H|rewrite Nat.add_0_r, Nat.mul_comm; exact Hqc]).
    clearbody c. clear Hqc Hd Hq.
    assert (Hj : 2 ^ j = 2 ^ i * 2 ^ (j - i)) by (rewrite <- Nat.pow_add_r; f_equal; lia).
    rewrite Hj. pose proof (pow2_pos_nat (j - i)). pose proof (pow2_pos_nat i).
    replace ((c + 1) * 2 ^ (j - i) - 1 - c * 2 ^ (j - i)) with (2 ^ (j - i) - 1) by nia.
    rewrite Nat.mul_sub_distr_l. nia.
Qed.

Lemma reinit_sinv q u f : sinv q u f -> (u = 0 \/ forall i, f i = None) ->
  sinv (q + 1) U (reinit (q + 1) f).
Proof.
  intros Hi Hu.
  assert (Hu0 : forall j x, f j = Some x -> u = 0).
  { intros j x Hj. destruct Hu as [Hu|Hu]; [exact Hu|]. rewrite Hu in Hj. discriminate. }
  assert (Hdue : forall j x, f j = Some x -> (q + 1) mod 2 ^ (j + 1) <> 0).
  { intros j x Hj. eapply sinv_due; eauto. }
  assert (Hpend : forall i y, reinit (q + 1) f i = Some y ->
     ((q + 1) mod 2 ^ (i + 1) <> 0 /\ f i = Some y) \/
     (i < thc /\ (q + 1) mod 2 ^ (i + 1) = 0 /\ y = q + 1 + 3 * 2 ^ i /\ y < 2 ^ Ht /\ f i = None)).
  { intros i y Hy. unfold reinit in Hy.
    destruct ((i <? thc) && ((q + 1) mod 2 ^ (i + 1) =? 0) && (q + 1 + 3 * 2 ^ i <? 2 ^ Ht)) eqn:Ec.
    - right. apply andb_prop in Ec as [Ec E3]. apply andb_prop in Ec as [E1 E2].
      apply Nat.ltb_lt in E1, E3. apply Nat.eqb_eq in E2. injection Hy as <-.
      destruct (f i) as [z|] eqn:Ez; [exfalso; now apply (Hdue i z)|]. auto.
    - left. split; [now apply (Hdue i y)|exact Hy]. }
  assert (Hfresh : forall i, (q + 1) mod 2 ^ (i + 1) = 0 -> (q + 1 + 3 * 2 ^ i) mod 2 ^ i = 0).
  { intros i Hm. pose proof (pow2_pos_nat i). rewrite Nat.mod_add by lia. now apply (mod0_pow _ i (i + 1)); [lia|]. }
  assert (Hge : forall i, (q + 1) mod 2 ^ (i + 1) = 0 -> 2 ^ (i + 1) <= q + 1).
  { intros i Hm. apply Nat.mod_divides in Hm as [c Hc]; [|pose proof (pow2_pos_nat (i + 1)); lia].
    destruct c; [lia|]. nia. }
  assert (Hdom : forall i x, reinit (q + 1) f i = Some x -> i < thc /\ i + 3 <= Ht).
  { intros i y Hy. apply Hpend in Hy as [(_ & Hy)|(H1 & H2 & H3 & H4 & H5)]; [eapply si_dom; eauto|].
    split; [exact H1|]. pose proof (Hge i H2) as Hg. rewrite Nat.add_1_r, Nat.pow_succ_r' in Hg.
    assert (2 ^ (i + 2) < 2 ^ Ht).
    { rewrite Nat.pow_add_r. change (2 ^ 2) with 4. pose proof (pow2_pos_nat i). lia. }
    apply Nat.pow_lt_mono_r_iff in H; lia. }
  (* the sum of the work: what is inited now was in the future *)
  assert (Hrem : forall i, rem (reinit (q + 1) f) i <= rem f i + (if (q + 1) mod 2 ^ (i + 1) =? 0 then 2 ^ i else 0)).
  { intros i. unfold rem. destruct (reinit (q + 1) f i) as [y|] eqn:Ey; [|lia].
    apply Hpend in Ey as [(Hn & Hy)|(H1 & H2 & H3 & H4 & H5)].
    - rewrite Hy. apply Nat.eqb_neq in Hn. rewrite Hn. lia.
    - rewrite H5, H2. cbn [Nat.eqb]. lia. }
  assert (Hovs : forall j i, (q + 1) mod 2 ^ (j + 1) <> 0 \/ True -> ovs (reinit (q + 1) f) j i <= ovs f j i).
  { intros j i _. unfold ovs. destruct (j <? i) eqn:Eji; [|lia]. apply Nat.ltb_lt in Eji.
    destruct (reinit (q + 1) f i) as [y|] eqn:Ey; [|lia].
    apply Hpend in Ey as [(Hn & Hy)|(H1 & H2 & H3 & H4 & H5)]; [rewrite Hy; lia|].
    subst y. unfold ov. rewrite (mod0_pow _ j i) by (lia || now apply Hfresh). cbn [Nat.eqb]. lia. }
  constructor.
  - exact Hdom.
  - intros i y Hy. apply Hpend in Hy as [(_ & Hy)|(H1 & H2 & H3 & H4 & H5)]; [eapply si_lt; eauto|exact H4].
  - intros i y Hy. apply Hpend in Hy as [(Hn & Hy)|(H1 & H2 & -> & H4 & H5)].
    + rewrite (si_tgt _ _ _ Hi _ _ Hy). pose proof (pow2_pos_nat (i + 1)).
      destruct (succ_mod_cases q (2 ^ (i + 1)) ltac:(lia)) as [(M1 & M2 & M3)|(M1 & M2 & M3)]; [congruence|]. now rewrite M3.
    + pose proof (pow2_pos_nat i). rewrite Nat.div_add by lia.
      pose proof (pow2_pos_nat (i + 1)). pose proof (Nat.div_mod (q + 1) (2 ^ (i + 1)) ltac:(lia)) as Hd.
      rewrite H2, Nat.add_0_r in Hd. rewrite Hd at 1.
      replace (2 ^ (i + 1)) with (2 ^ i * 2) at 1 by (rewrite Nat.add_1_r, Nat.pow_succ_r'; lia).
      rewrite <- Nat.mul_assoc, Nat.mul_comm, Nat.div_mul by lia. lia.
  - intros t i x y Hti Hx Hy Hm.
    apply Hpend in Hx as [(Hn & Hx)|(H1 & H2 & -> & H4 & H5)]; [|exfalso; apply Hm; now apply Hfresh].
    apply Hpend in Hy as [(Hn' & Hy)|(H1 & H2 & -> & H4 & H5)]; [eapply si_nest; eauto|].
    apply (mod0_pow _ t i); [lia|]. now apply Hfresh.
  - intros j y Hy. pose proof Hy as Hy0.
    assert (Hs1 : sum thc (ovs (reinit (q + 1) f) j) <= sum thc (ovs f j)) by (apply sum_le; auto).
    apply Hpend in Hy as [(Hn & Hy)|(H1 & H2 & H3 & H4 & H5)].
    + pose proof (si_dead _ _ _ Hi _ _ Hy) as Hd. rewrite (Hu0 j y Hy) in Hd.
      rewrite due_same by exact Hn.
      pose proof (fut_step j q Hn) as Hf.
      assert (Hs2 : sum (S j) (rem (reinit (q + 1) f)) <=
        sum (S j) (rem f) + sum j (fun i => if (q + 1) mod 2 ^ (i + 1) =? 0 then 2 ^ i else 0)).
      { cbn [sum].
        assert (Hr : rem (reinit (q + 1) f) j <= rem f j).
        { pose proof (Hrem j) as Hr. apply Nat.eqb_neq in Hn. rewrite Hn in Hr. lia. }
        assert (Hr2 : sum j (rem (reinit (q + 1) f)) <=
          sum j (fun i => rem f i + (if (q + 1) mod 2 ^ (i + 1) =? 0 then 2 ^ i else 0)))
          by (apply sum_le; auto).
        rewrite sum_add in Hr2. lia. }
      pose proof (due_gt j q).
      assert (q + 2 <= due j q).
      { destruct (Nat.eq_dec (due j q) (q + 1)) as [Hq|Hq]; [|lia]. exfalso. apply Hn. rewrite <- Hq.
        unfold due. apply Nat.mod_mul. pose proof (pow2_pos_nat (j + 1)). lia. }
      replace (due j q - q - 1) with (1 + (due j q - (q + 1) - 1)) in Hd by lia. lia.
    + (* freshly initialised *)
      pose proof (fut_init j (q + 1) H2) as Hf.
      assert (Hduej : due j (q + 1) = q + 1 + 2 ^ (j + 1)).
      { unfold due. pose proof (pow2_pos_nat (j + 1)). pose proof (Nat.div_mod (q + 1) (2 ^ (j + 1)) ltac:(lia)). lia. }
      rewrite Hduej. replace (q + 1 + 2 ^ (j + 1) - (q + 1) - 1) with (2 ^ (j + 1) - 1) by lia.
      assert (Hs2 : sum (S j) (rem (reinit (q + 1) f)) <= 2 ^ (S j) - 1).
      { rewrite <- sum_pow. apply sum_le. intros i _. unfold rem. destruct (reinit (q + 1) f i); lia. }
      rewrite Nat.pow_succ_r' in Hs2.
      replace (2 ^ (j + 1)) with (2 * 2 ^ j) by (rewrite Nat.add_1_r, Nat.pow_succ_r'; lia).
      pose proof (pow2_pos_nat j) as Hp. destruct (Hdom j y Hy0) as [D1 D2].
      assert (HUm : U + U * (2 * 2 ^ j - 1) = 2 * U * 2 ^ j).
      { replace (2 * U * 2 ^ j) with (U * (2 * 2 ^ j)) by lia.
        destruct (2 * 2 ^ j) as [|m] eqn:Em; [lia|]. clear Em. rewrite Nat.mul_succ_r. replace (S m - 1) with m by lia. lia. } rewrite HUm.
      destruct (Nat.le_gt_cases (S (S j)) (Nat.min thc (Ht - 2))) as [Hle|Hgt].
      * pose proof (over_bound f j q u Hi) as Ho.
        assert (Hm : S (S j) * 2 ^ j <= 2 * U * 2 ^ j) by (apply Nat.mul_le_mono_r; lia).
        cbn [Nat.mul] in Hm. lia.
      * (* the highest active level: nothing above it *)
        assert (Hz : sum thc (ovs f j) = 0).
        { apply sum_zero. intros i Hit. unfold ovs. destruct (j <? i) eqn:Eji; [|reflexivity]. apply Nat.ltb_lt in Eji.
          destruct (f i) as [z|] eqn:Ez; [|reflexivity]. pose proof (si_dom _ _ _ Hi _ _ Ez). lia. }
        assert (Hm : S j * 2 ^ j <= 2 * U * 2 ^ j) by (apply Nat.mul_le_mono_r; lia).
        cbn [Nat.mul] in Hm. lia.
Qed.

Lemma sinv_none q u : sinv q u (fun _ => None).
Proof. constructor; intros; discriminate. Qed.

(** ** Total work: remaining leaves of all instances *)
Definition tw (f : sst) : nat := sum thc (rem f).
Lemma tw_step q u f x : sinv q u f -> chosen f x -> tw (sstep f x) + 1 = tw f.
Proof.
  intros Hi Hc. assert (Hx : exists e, f x = Some e) by (destruct Hc as [(e & He & _)|(e & He & _)]; eauto). destruct Hx as [e He].
  pose proof (si_dom _ _ _ Hi _ _ He) as [D _]. pose proof (rem_step f x e He) as R. unfold tw.
  pose proof (sum_change thc (rem (sstep f x)) (rem f) x D) as C.
  assert (A : forall i, i < thc -> i <> x -> rem (sstep f x) i = rem f i) by (intros i _ Hn; unfold rem; now rewrite sstep_other).
  specialize (C A). lia.
Qed.
Lemma tw_none f : (forall i, f i = None) -> tw f = 0.
Proof. intros Hn. apply sum_zero. intros i _. unfold rem. now rewrite Hn. Qed.
Lemma tw_zero q u f : sinv q u f -> tw f = 0 -> forall i, f i = None.
Proof.
  intros Hi Hz i. destruct (f i) as [x|] eqn:Hx; [exfalso|reflexivity]. pose proof (si_dom _ _ _ Hi _ _ Hx) as [D _].
  pose proof (sum_pick thc (rem f) i D) as P. pose proof (rem_pos f i x Hx). unfold tw in Hz. lia.
Qed.
Lemma tw_lt f : tw f < 2 ^ thc.
Proof.
  assert (A : tw f <= 2 ^ thc - 1). { unfold tw. rewrite <- sum_pow. apply sum_le. intros i _. unfold rem. destruct (f i); lia. }
  pose proof (pow2_pos_nat thc). lia.
Qed.
(** work started by the rounds up to leaf q *)
Definition wk (q : nat) : nat := sum thc (fun i => if i + 3 <=? Ht then 2 ^ i * (q / 2 ^ (i + 1)) else 0).
Lemma wk_0 : wk 0 = 0.
Proof. apply sum_zero. intros i _. rewrite Nat.div_0_l by (pose proof (pow2_pos_nat (i + 1)); lia). destruct (i + 3 <=? Ht); lia. Qed.
Lemma wk_1 : wk 1 = 0.
Proof.
  apply sum_zero. intros i _. rewrite Nat.div_small; [destruct (i + 3 <=? Ht); lia|].
  rewrite Nat.add_1_r, Nat.pow_succ_r'. pose proof (pow2_pos_nat i). lia.
Qed.
Lemma tw_reinit q f : tw (reinit (q + 1) f) + wk q <= tw f + wk (q + 1).
Proof.
  unfold tw, wk. rewrite <- !sum_add. apply sum_le. intros i Hi. unfold rem at 1, reinit.
  replace (i <? thc) with true by (symmetry; now apply Nat.ltb_lt). cbn [andb].
  pose proof (pow2_pos_nat i) as P. pose proof (pow2_pos_nat (i + 1)) as P1.
  assert (Hm : q / 2 ^ (i + 1) <= (q + 1) / 2 ^ (i + 1)) by (apply Nat.div_le_mono; lia).
  destruct ((q + 1) mod 2 ^ (i + 1) =? 0) eqn:E1; [destruct (q + 1 + 3 * 2 ^ i <? 2 ^ Ht) eqn:E2|]; cbn [andb].
  - apply Nat.eqb_eq in E1. apply Nat.ltb_lt in E2.
    destruct (succ_mod_cases q (2 ^ (i + 1)) P1) as [(_ & _ & D)|(_ & D & _)]; [|lia]. rewrite D.
    assert (Hge : 2 ^ (i + 1) <= q + 1).
    { apply Nat.mod_divide in E1; [|lia]. destruct E1 as [c Hc]. destruct c; [lia|]. rewrite Hc. cbn [Nat.mul]. lia. }
    assert (H3 : i + 3 <= Ht).
    { destruct (Nat.le_gt_cases (i + 3) Ht) as [A|A]; [exact A|exfalso].
      assert (2 ^ Ht <= 2 ^ (i + 2)) by (apply Nat.pow_le_mono_r; lia).
      rewrite Nat.pow_add_r in H. rewrite Nat.pow_add_r in Hge. cbn [Nat.pow] in *. lia. }
    replace (i + 3 <=? Ht) with true by (symmetry; now apply Nat.leb_le).
    assert (Hq : (q + 1 + 3 * 2 ^ i) mod 2 ^ i = 0).
    { rewrite Nat.mod_add by lia. apply (mod0_pow (q + 1) i (i + 1)); [lia|exact E1]. }
    rewrite Hq. rewrite Nat.mul_add_distr_l. lia.
  - fold (rem f i). destruct (i + 3 <=? Ht); [|lia]. pose proof (Nat.mul_le_mono_l _ _ (2 ^ i) Hm). lia.
  - fold (rem f i). destruct (i + 3 <=? Ht); [|lia]. pose proof (Nat.mul_le_mono_l _ _ (2 ^ i) Hm). lia.
Qed.
Lemma wk_le q : wk q <= U * q.
Proof.
  assert (A : forall k, 2 * sum k (fun i => if i + 3 <=? Ht then 2 ^ i * (q / 2 ^ (i + 1)) else 0) <= Nat.min k (Ht - 2) * q).
  { induction k as [|k IH]; cbn [sum]; [cbn; lia|].
    destruct (Nat.leb_spec (k + 3) Ht) as [C|C].
    - replace (Nat.min (S k) (Ht - 2)) with (S (Nat.min k (Ht - 2))) by lia. rewrite Nat.mul_succ_l.
      pose proof (pow2_pos_nat (k + 1)) as P1. pose proof (Nat.mul_div_le q (2 ^ (k + 1)) ltac:(lia)) as D.
      rewrite Nat.add_1_r, Nat.pow_succ_r' in D. rewrite Nat.add_1_r, Nat.pow_succ_r'. rewrite Nat.mul_add_distr_l, Nat.mul_assoc. lia.
    - assert (Nat.min k (Ht - 2) <= Nat.min (S k) (Ht - 2)) by lia. pose proof (Nat.mul_le_mono_r _ _ q H). lia. }
  specialize (A thc). fold (wk q) in A. pose proof (Nat.mul_le_mono_r _ _ q HU). lia.
Qed.
(** near the end of the tree nothing is running *)
Lemma sinv_end q u f : sinv q u f -> 2 ^ Ht <= q + 2 -> forall i, f i = None.
Proof.
  intros Hi Hq i. destruct (f i) as [x|] eqn:Hx; [exfalso|reflexivity].
  pose proof (si_lt _ _ _ Hi _ _ Hx) as L. pose proof (si_tgt _ _ _ Hi _ _ Hx) as Tg.
  pose proof (pow2_pos_nat i) as P. pose proof (pow2_pos_nat (i + 1)) as P1.
  pose proof (Nat.mul_div_le x (2 ^ i) ltac:(lia)) as D. rewrite Tg in D.
  pose proof (Nat.div_mod q (2 ^ (i + 1)) ltac:(lia)) as M. pose proof (Nat.mod_upper_bound q (2 ^ (i + 1)) ltac:(lia)) as B.
  set (c := q / 2 ^ (i + 1)) in *. rewrite Nat.add_1_r, Nat.pow_succ_r' in M, B. rewrite !Nat.mul_add_distr_l in D.
  replace (2 * 2 ^ i * c) with (2 ^ i * (2 * c)) in M by lia. lia.
Qed.
End Sched.
