(** The statistics of test/speed.c. *)
From Coq Require Import Sorted Permutation.
From Verif Require Import Base Lib ModelSpeed SpecSpeed.

Lemma cmp_le a b : (cmp_llu a b <=? 0)%Z = true <-> (a <= b)%N.
Proof. unfold cmp_llu. destruct (N.ltb_spec a b); [split; [lia|reflexivity]|]. destruct (N.ltb_spec b a); split; intros; try lia; try discriminate; reflexivity. Qed.
Lemma ins_perm x l : Permutation (x :: l) (qsort_insert x l).
Proof.
  induction l as [|y l IH]; cbn [qsort_insert]; [reflexivity|]. destruct (cmp_llu x y <=? 0)%Z; [reflexivity|].
  rewrite perm_swap. now apply perm_skip.
Qed.
Lemma qsort_perm l : Permutation l (qsort l).
Proof. induction l as [|x l IH]; [reflexivity|]. cbn [qsort fold_right]. rewrite <- ins_perm. now apply perm_skip. Qed.
Lemma ins_sorted x l : Sorted N.le l -> Sorted N.le (qsort_insert x l).
Proof.
  induction l as [|y l IH]; intros Hs; cbn [qsort_insert]; [repeat constructor|]. destruct (cmp_llu x y <=? 0)%Z eqn:Ec.
  - apply cmp_le in Ec. constructor; [exact Hs|now constructor].
  - assert (Hxy : (y < x)%N) by (destruct (N.lt_ge_cases y x) as [|Hge]; [assumption|apply cmp_le in Hge; congruence]).
    inversion Hs as [|? ? Hs' Hh]; subst. constructor; [now apply IH|].
    destruct l as [|z l]; cbn [qsort_insert]; [constructor; lia|]. inversion Hh; subst. destruct (cmp_llu x z <=? 0)%Z; constructor; lia.
Qed.
Lemma qsort_sorted l : Sorted N.le (qsort l).
Proof. induction l as [|x l IH]; [constructor|]. cbn [qsort fold_right]. now apply ins_sorted. Qed.
Lemma qsort_length l : length (qsort l) = length l.
Proof. symmetry. apply Permutation_length, qsort_perm. Qed.
(** a sorted permutation is the sorted list *)
Lemma sorted_unique : forall l s : list N, Permutation l s -> Sorted N.le l -> Sorted N.le s -> l = s.
Proof.
  intros l. induction l as [|x l IH]; intros s Hp Hl Hs; [apply Permutation_nil in Hp; now subst|].
  destruct s as [|y s]; [now apply Permutation_sym, Permutation_nil in Hp|].
  apply Sorted_StronglySorted in Hl; [|intros a b c; apply N.le_trans]. apply Sorted_StronglySorted in Hs; [|intros a b c; apply N.le_trans].
  inversion Hl as [|? ? Hl1 Hl2]; inversion Hs as [|? ? Hs1 Hs2]; subst. rewrite Forall_forall in Hl2, Hs2.
  assert (Hxy : x = y).
  { assert (H1 : In x (y :: s)) by (apply (Permutation_in _ Hp); now left). assert (H2 : In y (x :: l)) by (apply (Permutation_in _ (Permutation_sym Hp)); now left).
    destruct H1 as [->|H1]; [reflexivity|]. destruct H2 as [->|H2]; [reflexivity|]. specialize (Hl2 _ H2). specialize (Hs2 _ H1). lia. }
  subst y. f_equal. apply IH; [now apply Permutation_cons_inv in Hp|now apply StronglySorted_Sorted|now apply StronglySorted_Sorted].
Qed.

(** ** Durations *)
Lemma dur_length t : length (durations t) = length t - 1.
Proof.
  assert (H : forall x t, length (durations (x :: t)) = length t). { intros x t0. revert x. induction t0 as [|y t0 IH]; intros x; [reflexivity|]. cbn [durations length]. f_equal. apply IH. }
  destruct t as [|x t]; [reflexivity|]. rewrite H. cbn. lia.
Qed.
Definition sum (l : list N) : N := fold_right N.add 0%N l.
Lemma sum_perm l s : Permutation l s -> sum l = sum s.
Proof. induction 1; cbn [sum fold_right] in *; unfold sum in *; lia. Qed.
Lemma sum_app l s : sum (l ++ s) = (sum l + sum s)%N.
Proof. induction l as [|x l IH]; cbn [app sum fold_right]; [reflexivity|]. unfold sum in *. lia. Qed.
Lemma dur_sum t : forall x, Sorted N.le (x :: t) -> (sum (durations (x :: t)) + x = last (x :: t) 0)%N.
Proof.
  induction t as [|y t IH]; intros x Hs; [reflexivity|]. inversion Hs as [|? ? Hs' Hh]; subst. inversion Hh; subst.
  change (durations (x :: y :: t)) with ((y - x)%N :: durations (y :: t)). change (last (x :: y :: t) 0%N) with (last (y :: t) 0%N).
  specialize (IH y Hs'). cbn [sum fold_right]. fold (sum (durations (y :: t))). lia.
Qed.
Lemma sum_in l x : In x l -> (x <= sum l)%N.
Proof. induction l as [|y l IH]; intros []; cbn [sum fold_right]; fold (sum l); [subst; lia|specialize (IH H); lia]. Qed.
Lemma sum_two l i j x y : nth_error l i = Some x -> nth_error l j = Some y -> i < j -> (x + y <= sum l)%N.
Proof.
  revert i j. induction l as [|z l IH]; intros [|i] [|j] Hx Hy Hij; cbn [nth_error] in *; try discriminate; try lia; cbn [sum fold_right]; fold (sum l).
  - injection Hx as ->. apply nth_error_In, sum_in in Hy. lia.
  - pose proof (IH i j Hx Hy ltac:(lia)). lia.
Qed.

(** the loop of print_results *)
Lemma last_in (l : list N) : forall x, In (last (x :: l) 0%N) (x :: l).
Proof. induction l as [|y l IH]; intros x; [now left|]. right. exact (IH y). Qed.
Lemma diff_loop : forall rest pre x i, i = length pre -> Sorted N.le (x :: rest) -> Forall (fun x => (x < 2 ^ 64)%N) (x :: rest) ->
  forN (length rest) i (fun i t => let* x := rdc t (i + 1) in let* y := rdc t i in wrc t i (u64 (x + (2 ^ 64 - y)))) (pre ++ x :: rest) =
  Ok (pre ++ durations (x :: rest) ++ [last (x :: rest) 0%N]).
Proof.
  induction rest as [|y rest IH]; intros pre x i -> Hs Hb; [cbn; now rewrite ?app_nil_r|].
  cbn [length forN].
  assert (R1 : rdc (pre ++ x :: y :: rest) (length pre + 1) = Ok y).
  { apply rdc_some. rewrite nth_error_app2 by lia. replace (length pre + 1 - length pre) with 1 by lia. reflexivity. }
  assert (R2 : rdc (pre ++ x :: y :: rest) (length pre) = Ok x).
  { apply rdc_some. rewrite nth_error_app2 by lia. now rewrite Nat.sub_diag. }
  rewrite R1, bind_ok, R2, bind_ok. inversion Hs as [|? ? Hs' Hh]; subst. inversion Hh; subst. inversion Hb as [|? ? Hb1 Hb2]; subst. inversion Hb2; subst.
  assert (Hu : u64 (y + (2 ^ 64 - x)) = (y - x)%N).
  { unfold u64. replace (y + (2 ^ 64 - x))%N with (y - x + 1 * 2 ^ 64)%N by lia. rewrite N.mod_add by discriminate. apply N.mod_small. lia. }
  rewrite Hu.
  assert (Hw : wrc (pre ++ x :: y :: rest) (length pre) (y - x)%N = Ok ((pre ++ [(y - x)%N]) ++ y :: rest)).
  { rewrite wrc_ok by (rewrite app_length; cbn [length]; lia). f_equal. rewrite <- app_assoc. clear. induction pre as [|z pre IH]; [reflexivity|]. cbn [app length upd]. now rewrite IH. }
  rewrite Hw, bind_ok. rewrite (IH (pre ++ [(y - x)%N]) y) by (rewrite ?app_length; cbn; try lia; assumption).
  change (durations (x :: y :: rest)) with ((y - x)%N :: durations (y :: rest)). change (last (x :: y :: rest) 0%N) with (last (y :: rest) 0%N).
  rewrite <- !app_assoc. reflexivity.
Qed.
Lemma avg_loop : forall s t i acc, (forall j, j < length s -> nth_error t (i + j) = nth_error s j) -> (acc + sum s < 2 ^ 64)%N ->
  forN (length s) i (fun i acc => let* x := rdc t i in Ok (u64 (acc + x))) acc = Ok (acc + sum s)%N.
Proof.
  induction s as [|x s IH]; intros t i acc Ht Hb; [cbn; f_equal; lia|]. cbn [length forN sum fold_right] in *. fold (sum s) in *.
  rewrite (rdc_some t i x) by (specialize (Ht 0 ltac:(lia)); rewrite Nat.add_0_r in Ht; exact Ht).
  assert (Hu : u64 (acc + x) = (acc + x)%N) by (unfold u64; apply N.mod_small; lia). rewrite !bind_ok, Hu. rewrite IH; [f_equal; lia| |lia].
  intros j Hj. specialize (Ht (S j) ltac:(lia)). rewrite <- plus_n_Sm in Ht. exact Ht.
Qed.
Lemma last_max t : forall x, Sorted N.le (x :: t) -> Forall (fun y => (y <= last (x :: t) 0)%N) (x :: t).
Proof.
  induction t as [|y t IH]; intros x Hs; [repeat constructor; reflexivity|]. inversion Hs as [|? ? Hs' Hh]; subst. inversion Hh; subst.
  change (last (x :: y :: t) 0%N) with (last (y :: t) 0%N). specialize (IH y Hs'). constructor; [inversion IH; subst; lia|exact IH].
Qed.

(** what is printed *)
Lemma printed x t : readings (x :: t) -> t <> [] -> let s := qsort (durations (x :: t)) in
  print_results (x :: t) (S (length t)) =
  (let* (med, _) := median (s ++ [last (x :: t) 0%N]) (S (length t)) in Ok (med, ((last (x :: t) 0 - x) / N.of_nat (length t))%N)).
Proof.
  intros [Hs Hb] Hn. cbv zeta. unfold print_results. cbn [Nat.eqb]. replace (S (length t) - 1) with (length t) by lia.
  pose proof (diff_loop t [] x 0 eq_refl Hs Hb) as Hl. cbn [app] in Hl. rewrite Hl, bind_ok. clear Hl.
  set (D := durations (x :: t)). set (L := last (x :: t) 0%N). set (s := qsort D).
  pose proof (dur_sum t x Hs) as Hsum. fold D L in Hsum.
  assert (HD : length D = length t) by (unfold D; rewrite dur_length; cbn; lia).
  assert (Hsl : length s = length t) by (unfold s; now rewrite qsort_length).
  assert (HL : (L < 2 ^ 64)%N). { unfold L. rewrite Forall_forall in Hb. apply Hb, last_in. }
  assert (Hq : forall u, u = D ++ [L] \/ u = s ++ [L] -> qsort u = s ++ [L]).
  { intros u Hu. apply sorted_unique; [| apply qsort_sorted|].
    - rewrite <- qsort_perm. destruct Hu as [->| ->]; [|reflexivity]. apply Permutation_app_tail. apply qsort_perm.
    - assert (Hm : Forall (fun y => (y <= L)%N) s).
      { apply Forall_forall. intros y Hy. apply (Permutation_in _ (Permutation_sym (qsort_perm D))) in Hy. apply sum_in in Hy. lia. }
      pose proof (qsort_sorted D) as Hss. fold s in Hss. clear - Hm Hss. induction s as [|y s IH]; cbn [app]; [repeat constructor|].
      inversion Hss; inversion Hm; subst. constructor; [now apply IH|]. destruct s as [|z s]; cbn [app]; [constructor; assumption|]. inversion H2; now constructor. }
  assert (Hmed : median (D ++ [L]) (S (length t)) = median (s ++ [L]) (S (length t))).
  { unfold median. rewrite !app_length. cbn [length]. rewrite HD, Hsl. destruct (length t + 1 <? S (length t)); [reflexivity|].
    rewrite (firstn_all2 (D ++ [L])) by (rewrite app_length; cbn [length]; lia). rewrite (firstn_all2 (s ++ [L])) by (rewrite app_length; cbn [length]; lia). rewrite (skipn_all2 (D ++ [L])) by (rewrite app_length; cbn [length]; lia). rewrite (skipn_all2 (s ++ [L])) by (rewrite app_length; cbn [length]; lia).
    rewrite (Hq (D ++ [L])), (Hq (s ++ [L])) by auto. reflexivity. }
  rewrite Hmed.
  assert (Hafter : forall m l, median (s ++ [L]) (S (length t)) = Ok (m, l) -> l = s ++ [L]).
  { intros m l. unfold median. rewrite app_length. cbn [length]. destruct (_ <? _); [discriminate|].
    rewrite firstn_all2 by (rewrite app_length; cbn [length]; lia). rewrite skipn_all2 by (rewrite app_length; cbn [length]; lia). rewrite (Hq (s ++ [L])) by auto. rewrite app_nil_r.
    destruct (negb _); [destruct (rdc _ _); cbn [bind]; congruence|]. destruct (_ =? _); [discriminate|].
    destruct (rdc _ (_ - 1)); cbn [bind]; try discriminate. destruct (rdc _ _); cbn [bind]; congruence. }
  destruct (median (s ++ [L]) (S (length t))) as [[m l]| |] eqn:Em; [|reflexivity|reflexivity]. rewrite !bind_ok. rewrite (Hafter m l eq_refl).
  unfold average. rewrite <- Hsl.
  assert (Hss : sum s = sum D) by (symmetry; apply sum_perm, qsort_perm).
  rewrite (avg_loop s (s ++ [L]) 0 0%N); [| |lia].
  - rewrite bind_ok, Hsl. destruct t as [|y t]; [congruence|]. cbn [length Nat.eqb]. rewrite Hss. replace (0 + sum D)%N with (L - x)%N by lia. reflexivity.
  - intros j Hj. cbn [Nat.add]. now apply nth_error_app1.
Qed.

Lemma average_right t : readings t -> 2 <= length t -> exists med, print_results t (length t) = Ok (med, ((last t 0 - hd 0 t) / N.of_nat (length t - 1))%N).
Proof.
  intros Hr Hl. destruct t as [|x t]; [cbn in Hl; lia|]. assert (Hn : t <> []) by (intros ->; cbn in Hl; lia).
  cbn [length]. rewrite (printed x t Hr Hn). set (s := qsort (durations (x :: t))). set (L := last (x :: t) 0%N).
  assert (Hsl : length s = length t) by (unfold s; rewrite qsort_length, dur_length; cbn; lia).
  assert (Hm : exists m l, median (s ++ [L]) (S (length t)) = Ok (m, l)).
  { unfold median. rewrite app_length, Hsl. cbn [length]. destruct (Nat.ltb_spec (length t + 1) (S (length t))) as [?|_]; [lia|].
    set (q := qsort _ ++ _). assert (Hql : length q = S (length t)) by (unfold q; rewrite app_length, qsort_length, firstn_length, skipn_length, app_length, Hsl; cbn [length]; lia).
    assert (Hd : S (length t) / 2 < S (length t)) by (apply Nat.div_lt; lia).
    destruct (negb _); [rewrite (rdc_ok q _ 0%N) by lia; cbn [bind]; eauto|]. cbn [Nat.eqb].
    rewrite (rdc_ok q _ 0%N) by lia. rewrite bind_ok, (rdc_ok q _ 0%N) by lia. cbn [bind]. eauto. }
  destruct Hm as (m & l & ->). rewrite bind_ok. exists m. cbn [hd]. do 3 f_equal. replace (S (length t) - 1) with (length t) by lia. reflexivity.
Qed.

(** the printed median, for an even number of readings *)
Lemma median_printed k t : readings t -> 1 <= k -> length t = 2 * k + 2 ->
  exists m next avg, is_median k (durations t) m /\ ranked (k + 1) (durations t) next /\ (m <= next)%N /\
    print_results t (length t) = Ok ((m + (next - m) / 2)%N, avg).
Proof.
  intros Hr Hk Hl. destruct t as [|x t]; [cbn in Hl; lia|]. assert (Hn : t <> []) by (intros ->; cbn in Hl; lia).
  cbn [length] in *. rewrite (printed x t Hr Hn). set (s := qsort (durations (x :: t))). set (L := last (x :: t) 0%N).
  assert (Hsl : length s = 2 * k + 1) by (unfold s; rewrite qsort_length, dur_length; cbn; lia).
  destruct (nth_error s k) as [m|] eqn:E1; [|apply nth_error_None in E1; lia]. destruct (nth_error s (k + 1)) as [nx|] eqn:E2; [|apply nth_error_None in E2; lia].
  assert (Hle : (m <= nx)%N).
  { pose proof (qsort_sorted (durations (x :: t))) as Hss. fold s in Hss. apply Sorted_StronglySorted in Hss; [|intros a b c; apply N.le_trans]. clear - E1 E2 Hss.
    revert k E1 E2. induction s as [|y s IH]; intros [|k] E1 E2; cbn [nth_error Nat.add] in *; try discriminate.
    - injection E1 as <-. inversion Hss as [|? ? _ Hf]; subst. rewrite Forall_forall in Hf. apply Hf. apply (nth_error_In _ 0). exact E2.
    - inversion Hss; subst. now apply (IH H1 k). }
  assert (Hm : exists l, median (s ++ [L]) (S (length t)) = Ok ((m + (nx - m) / 2)%N, l)).
  { unfold median. rewrite app_length, Hsl. cbn [length]. rewrite Hl. destruct (Nat.ltb_spec (2 * k + 1 + 1) (2 * k + 2)) as [?|_]; [lia|].
    assert (Hmod : (2 * k + 2) mod 2 = 0) by (replace (2 * k + 2) with ((k + 1) * 2) by lia; apply Nat.mod_mul; lia).
    assert (Hdiv : (2 * k + 2) / 2 = k + 1) by (replace (2 * k + 2) with ((k + 1) * 2) by lia; apply Nat.div_mul; lia).
    rewrite Hmod, Hdiv. cbn [Nat.eqb negb]. destruct (Nat.eqb_spec (2 * k + 2) 0) as [?|_]; [lia|].
    rewrite firstn_all2 by (rewrite app_length; cbn [length]; lia). rewrite skipn_all2 by (rewrite app_length; cbn [length]; lia). rewrite app_nil_r.
    assert (Hq : qsort (s ++ [L]) = s ++ [L]).
    { destruct Hr as [Hs Hb]. pose proof (dur_sum t x Hs) as Hsum. symmetry. apply sorted_unique; [apply qsort_perm| |apply qsort_sorted].
      assert (Hm : Forall (fun y => (y <= L)%N) s).
      { apply Forall_forall. intros y Hy. apply (Permutation_in _ (Permutation_sym (qsort_perm _))) in Hy. apply sum_in in Hy. fold L in Hsum. lia. }
      pose proof (qsort_sorted (durations (x :: t))) as Hss. fold s in Hss. clear - Hm Hss. induction s as [|y s IH]; cbn [app]; [repeat constructor|].
      inversion Hss; inversion Hm; subst. constructor; [now apply IH|]. destruct s as [|z s]; cbn [app]; [constructor; assumption|]. inversion H2; now constructor. }
    rewrite Hq. replace (k + 1 - 1) with k by lia.
    rewrite (rdc_some _ k m) by (rewrite nth_error_app1 by lia; exact E1). rewrite bind_ok.
    rewrite (rdc_some _ (k + 1) nx) by (rewrite nth_error_app1 by lia; exact E2). rewrite bind_ok. eexists. f_equal. f_equal.
    assert (Hsm : (m + nx <= L)%N).
    { destruct Hr as [Hs Hb]. pose proof (dur_sum t x Hs) as Hsum. fold L in Hsum. pose proof (sum_two s k (k + 1) m nx E1 E2 ltac:(lia)) as H2.
      assert (Hss : sum s = sum (durations (x :: t))) by (symmetry; apply sum_perm, qsort_perm). lia. }
    assert (HL : (L < 2 ^ 64)%N). { destruct Hr as [Hs Hb]. unfold L. rewrite Forall_forall in Hb. apply Hb, last_in. }
    unfold u64. rewrite N.mod_small by lia. replace (m + nx)%N with (nx - m + m * 2)%N by lia. rewrite N.div_add by discriminate. lia. }
  destruct Hm as (l & ->). rewrite bind_ok. exists m, nx. eexists. split; [|split; [|split; [exact Hle|reflexivity]]].
  - split; [rewrite dur_length; cbn [length]; lia|]. exists s. split; [apply qsort_perm|]. split; [apply qsort_sorted|assumption].
  - exists s. split; [apply qsort_perm|]. split; [apply qsort_sorted|assumption].
Qed.
(** and for an odd number *)
Lemma median_odd k t : readings t -> 1 <= k -> length t = 2 * k + 1 ->
  exists x avg, ranked k (durations t) x /\ print_results t (length t) = Ok (x, avg).
Proof.
  intros Hr Hk Hl. destruct t as [|x t]; [cbn in Hl; lia|]. assert (Hn : t <> []) by (intros ->; cbn in Hl; lia).
  cbn [length] in *. rewrite (printed x t Hr Hn). set (s := qsort (durations (x :: t))). set (L := last (x :: t) 0%N).
  assert (Hsl : length s = 2 * k) by (unfold s; rewrite qsort_length, dur_length; cbn; lia).
  destruct (nth_error s k) as [m|] eqn:E1; [|apply nth_error_None in E1; lia].
  assert (Hm : exists l, median (s ++ [L]) (S (length t)) = Ok (m, l)).
  { unfold median. rewrite app_length, Hsl. cbn [length]. rewrite Hl. destruct (Nat.ltb_spec (2 * k + 1) (2 * k + 1)) as [?|_]; [lia|].
    assert (Hmod : (2 * k + 1) mod 2 = 1) by (replace (2 * k + 1) with (1 + k * 2) by lia; now rewrite Nat.mod_add by lia).
    assert (Hdiv : (2 * k + 1) / 2 = k) by (replace (2 * k + 1) with (1 + k * 2) by lia; rewrite Nat.div_add by lia; reflexivity).
    rewrite Hmod, Hdiv. cbn [Nat.eqb negb].
    rewrite firstn_all2 by (rewrite app_length; cbn [length]; lia). rewrite skipn_all2 by (rewrite app_length; cbn [length]; lia). rewrite app_nil_r.
    assert (Hq : qsort (s ++ [L]) = s ++ [L]).
    { destruct Hr as [Hs Hb]. pose proof (dur_sum t x Hs) as Hsum. symmetry. apply sorted_unique; [apply qsort_perm| |apply qsort_sorted].
      assert (Hm : Forall (fun y => (y <= L)%N) s).
      { apply Forall_forall. intros y Hy. apply (Permutation_in _ (Permutation_sym (qsort_perm _))) in Hy. apply sum_in in Hy. fold L in Hsum. lia. }
      pose proof (qsort_sorted (durations (x :: t))) as Hss. fold s in Hss. clear - Hm Hss. induction s as [|y s IH]; cbn [app]; [repeat constructor|].
      inversion Hss; inversion Hm; subst. constructor; [now apply IH|]. destruct s as [|z s]; cbn [app]; [constructor; assumption|]. inversion H2; now constructor. }
    rewrite Hq. rewrite (rdc_some _ k m) by (rewrite nth_error_app1 by lia; exact E1). rewrite bind_ok. eauto. }
  destruct Hm as (l & ->). rewrite bind_ok. exists m. eexists. split; [|reflexivity].
  exists s. split; [apply qsort_perm|]. split; [apply qsort_sorted|assumption].
Qed.
Lemma ranked_unique i l x y : ranked i l x -> ranked i l y -> x = y.
Proof.
  intros (s1 & A1 & A2 & A4) (s2 & B1 & B2 & B4). assert (s1 = s2) by (apply sorted_unique; [rewrite <- A1; exact B1|assumption|assumption]). congruence.
Qed.
(** the median is one value *)
Lemma median_unique k l x y : is_median k l x -> is_median k l y -> x = y.
Proof. intros [_ A] [_ B]. exact (ranked_unique _ _ _ _ A B). Qed.
(** the printed median is the median only when the two middle durations are within one unit *)
Lemma median_wrong k t m next : readings t -> 1 <= k -> is_median k (durations t) m -> ranked (k + 1) (durations t) next -> (m + 2 <= next)%N ->
  exists p avg, print_results t (length t) = Ok (p, avg) /\ (m < p)%N.
Proof.
  intros Hr Hk Hm Hn Hd. assert (Hl : length t = 2 * k + 2) by (destruct Hm as [Hm _]; rewrite dur_length in Hm; lia).
  destruct (median_printed k t Hr Hk Hl) as (m' & n' & avg & A & B & C & D).
  assert (m' = m) by exact (median_unique _ _ _ _ A Hm). assert (n' = next) by exact (ranked_unique _ _ _ _ B Hn). subst.
  exists (m + (next - m) / 2)%N, avg. split; [exact D|].
  assert (1 <= (next - m) / 2)%N by (apply N.div_le_lower_bound; lia). lia.
Qed.
Lemma two_readings x y : (x <= y < 2 ^ 63)%N -> print_results [x; y] 2 = Ok (((y - x + y) / 2)%N, (y - x)%N).
Proof.
  intros Hxy. unfold print_results. cbn [Nat.eqb Nat.sub forN rdc nth_error Nat.add bind wrc upd length Nat.ltb Nat.leb].
  assert (Hu : u64 (y + (2 ^ 64 - x)) = (y - x)%N).
  { unfold u64. replace (y + (2 ^ 64 - x))%N with (y - x + 1 * 2 ^ 64)%N by lia. rewrite N.mod_add by discriminate. apply N.mod_small. lia. }
  rewrite Hu. unfold median. cbn [length Nat.ltb Nat.leb firstn skipn Nat.eqb]. change (2 mod 2) with 0. cbn [Nat.eqb negb]. cbn [qsort fold_right qsort_insert].
  assert (Hc : (cmp_llu (y - x) y <=? 0)%Z = true) by (apply cmp_le; lia). rewrite Hc. change (2 / 2) with 1. cbn [app Nat.sub rdc nth_error bind].
  unfold average. cbn [forN rdc nth_error bind Nat.eqb]. unfold u64. change (N.of_nat 1) with 1%N. rewrite N.div_1_r. rewrite !N.mod_small by lia. do 2 f_equal. 
Qed.
