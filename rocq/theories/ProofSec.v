(** Proofs of the security reductions of SpecSec. *)
From Verif Require Import Base Lib ModelUtils ModelParams ModelHash ModelWots ModelCommons ModelCore SpecRfc SpecParams SpecComp SpecSec ProofUtils ProofHash ProofWots.

Lemma xorb_inj m : forall x y, length x = length m -> length y = length m -> xorb_spec x m = xorb_spec y m -> x = y.
Proof.
  induction m as [|k m IH]; intros [|a x] [|b y]; cbn [length]; try discriminate; [reflexivity|].
  intros Hx Hy H. unfold xorb_spec in H. cbn [combine map fst snd] in H. injection H as H1 H2.
  f_equal; [|apply IH; [lia|lia|exact H2]].
  assert (Hc : forall z, N.lxor (N.lxor z k) k = z) by (intros z; rewrite N.lxor_assoc, N.lxor_nilpotent; apply N.lxor_0_r).
  rewrite <- (Hc a), H1. apply Hc.
Qed.

Lemma app_inj_len {A} (a b c d : list A) : length a = length c -> a ++ b = c ++ d -> a = c /\ b = d.
Proof.
  revert c. induction a as [|x a IH]; intros [|y c]; cbn; try discriminate; [intros _ H; now split|].
  intros Hl H. injection H as -> H. destruct (IH c) as [-> ->]; [lia|exact H|now split].
Qed.

Section Sec.
Variable P : sparams.
Hypothesis Hn : forall x, length (sp_hash P x) = sp_n P /\ bytes_ok (sp_hash P x).
Variable seed : bytes.
Notation n := (sp_n P).
Notation coll := (collision P seed).

Lemma PRF_n k m : length (PRF P k m) = n. Proof. apply Hn. Qed.
Lemma RH_n A l r : length (RAND_HASH P seed A l r) = n. Proof. apply Hn. Qed.
Lemma RH_b A l r : bytes_ok (RAND_HASH P seed A l r). Proof. apply Hn. Qed.
Lemma RH_answer A l r : RAND_HASH P seed A l r = answer P seed (node_query P seed A l r).
Proof. reflexivity. Qed.
Lemma node_query_inj A l r l' r' : length l = n -> length r = n -> length l' = n -> length r' = n ->
  node_query P seed A l r = node_query P seed A l' r' -> l = l' /\ r = r'.
Proof.
  intros H1 H2 H3 H4 H. injection H as H. apply app_inj_len in H.
  - destruct H as [Ha Hb]. split; [apply (xorb_inj (PRF P seed (adrs_bytes (A 1%N))))|apply (xorb_inj (PRF P seed (adrs_bytes (A 2%N))))]; rewrite ?PRF_n; assumption.
  - rewrite !xorb_length, PRF_n. lia.
Qed.
Lemma step_query_inj A x y : length x = n -> length y = n -> step_query P seed A x = step_query P seed A y -> x = y.
Proof. intros H1 H2 H. injection H as H. apply (xorb_inj (PRF P seed (adrs_bytes (A 1%N)))); rewrite ?PRF_n; assumption. Qed.

Lemma coll_mono a b a' b' : incl a a' -> incl b b' -> coll a b -> coll a' b'.
Proof. intros Ha Hb [x [y [H1 [H2 H]]]]. exists x, y. split; [now apply Ha|]. split; [now apply Hb|exact H]. Qed.
Lemma coll_here a b q1 q2 : a <> b -> place a = place b -> answer P seed a = answer P seed b ->
  match a, b with Qmsg _ _ _ _, Qmsg _ _ _ _ | Qnode _ _, Qnode _ _ | Qstep _ _, Qstep _ _ => True | _, _ => False end ->
  coll (a :: q1) (b :: q2).
Proof. intros H1 H2 H3 H4. exists a, b. split; [now left|]. split; [now left|]. now repeat split. Qed.

Lemma node_dec A l r l' r' q1 q2 : length l = n -> length r = n -> length l' = n -> length r' = n ->
  RAND_HASH P seed A l r = RAND_HASH P seed A l' r' -> (l = l' /\ r = r') \/ coll (node_query P seed A l r :: q1) (node_query P seed A l' r' :: q2).
Proof.
  intros H1 H2 H3 H4 H. destruct (list_eq_dec N.eq_dec l l') as [Hl|Hl].
  - destruct (list_eq_dec N.eq_dec r r') as [Hr|Hr]; [now left|right].
    apply coll_here; [|reflexivity|exact H|exact I]. intros He. apply node_query_inj in He; [|assumption..]. now destruct He.
  - right. apply coll_here; [|reflexivity|exact H|exact I]. intros He. apply node_query_inj in He; [|assumption..]. now destruct He.
Qed.

(** *** Trees *)
Lemma climb_n L T : forall auth nd j i, length nd = n -> length (climb P seed L T nd j i auth) = n.
Proof. induction auth as [|a auth IH]; intros nd j i H; cbn [climb]; [exact H|]. apply IH. destruct (N.even i); apply RH_n. Qed.
Lemma climb_b L T : forall auth nd j i, bytes_ok nd -> bytes_ok (climb P seed L T nd j i auth).
Proof. induction auth as [|a auth IH]; intros nd j i H; cbn [climb]; [exact H|]. apply IH. destruct (N.even i); apply RH_b. Qed.
Lemma climb_bind L T : forall a1 a2 nd1 nd2 j i, length a1 = length a2 -> Forall (fun x => length x = n) a1 -> Forall (fun x => length x = n) a2 ->
  length nd1 = n -> length nd2 = n -> climb P seed L T nd1 j i a1 = climb P seed L T nd2 j i a2 ->
  nd1 = nd2 \/ coll (climb_queries P seed L T nd1 j i a1) (climb_queries P seed L T nd2 j i a2).
Proof.
  induction a1 as [|x a1 IH]; intros [|y a2] nd1 nd2 j i Hl F1 F2 H1 H2 H; try discriminate Hl; [now left|].
  inversion F1 as [|? ? Hx F1']; inversion F2 as [|? ? Hy F2']; subst. cbn [climb] in H. cbn [climb_queries]. cbv zeta in *.
  set (A := HTREE L T (N.of_nat j) (i / 2)) in *.
  apply IH in H; [|cbn in Hl; lia|assumption|assumption|destruct (N.even i); apply RH_n|destruct (N.even i); apply RH_n].
  destruct H as [H|H].
  - destruct (N.even i).
    + destruct (node_dec A nd1 x nd2 y (climb_queries P seed L T (RAND_HASH P seed A nd1 x) (S j) (i / 2) a1) (climb_queries P seed L T (RAND_HASH P seed A nd2 y) (S j) (i / 2) a2)) as [[He _]|Hc]; [assumption..|now left|now right].
    + destruct (node_dec A x nd1 y nd2 (climb_queries P seed L T (RAND_HASH P seed A x nd1) (S j) (i / 2) a1) (climb_queries P seed L T (RAND_HASH P seed A y nd2) (S j) (i / 2) a2)) as [[_ He]|Hc]; [assumption..|now left|now right].
  - right. revert H. apply coll_mono; apply incl_tl, incl_refl.
Qed.

Lemma climb_bind_path L T : forall a1 a2 nd1 nd2 j i, length a1 = length a2 -> Forall (fun x => length x = n) a1 -> Forall (fun x => length x = n) a2 ->
  length nd1 = n -> length nd2 = n -> climb P seed L T nd1 j i a1 = climb P seed L T nd2 j i a2 ->
  (nd1 = nd2 /\ a1 = a2) \/ coll (climb_queries P seed L T nd1 j i a1) (climb_queries P seed L T nd2 j i a2).
Proof.
  induction a1 as [|x a1 IH]; intros [|y a2] nd1 nd2 j i Hl F1 F2 H1 H2 HC; try discriminate Hl; [left; now split|].
  inversion F1 as [|? ? Hx F1']; inversion F2 as [|? ? Hy F2']; subst. cbn [climb] in HC. cbn [climb_queries]. cbv zeta in *.
  set (A := HTREE L T (N.of_nat j) (i / 2)) in *.
  apply IH in HC; [|cbn in Hl; lia|assumption|assumption|destruct (N.even i); apply RH_n|destruct (N.even i); apply RH_n].
  destruct HC as [[HC ->]|HC].
  - destruct (N.even i).
    + destruct (node_dec A nd1 x nd2 y (climb_queries P seed L T (RAND_HASH P seed A nd1 x) (S j) (i / 2) a2) (climb_queries P seed L T (RAND_HASH P seed A nd2 y) (S j) (i / 2) a2)) as [[-> ->]|Hc]; [assumption..|now left|now right].
    + destruct (node_dec A x nd1 y nd2 (climb_queries P seed L T (RAND_HASH P seed A x nd1) (S j) (i / 2) a2) (climb_queries P seed L T (RAND_HASH P seed A y nd2) (S j) (i / 2) a2)) as [[-> ->]|Hc]; [assumption..|now left|now right].
  - right. revert HC. apply coll_mono; apply incl_tl, incl_refl.
Qed.

Lemma pieces_concat : forall k s, k * n <= length s -> concat (pieces P k s) = firstn (k * n) s.
Proof.
  induction k as [|k IH]; intros s Hs; [reflexivity|]. cbn [pieces concat]. rewrite IH by (rewrite skipn_length; lia).
  cbn [Nat.mul]. rewrite <- (firstn_skipn n (firstn (n + k * n) s)). rewrite firstn_firstn, Nat.min_l by lia. f_equal.
  rewrite skipn_firstn_comm. f_equal. lia.
Qed.


(** *** L-trees *)
Lemma level_n L T o h : forall k nodes i, length nodes <= k -> Forall (fun x => length x = n) nodes ->
  Forall (fun x => length x = n) (ltree_level P seed L T o h i nodes) /\ length (ltree_level P seed L T o h i nodes) = (length nodes + 1) / 2.
Proof.
  induction k as [|k IH]; intros [|a [|b r]] i Hk Hf; cbn [ltree_level].
  - split; [constructor|reflexivity].
  - cbn in Hk; lia.
  - cbn in Hk; lia.
  - split; [constructor|reflexivity].
  - split; [exact Hf|reflexivity].
  - inversion Hf as [|? ? Ha Hf']; subst. inversion Hf' as [|? ? Hb Hf'']; subst.
    destruct (IH r (S i)) as [I1 I2]; [cbn in Hk; lia|assumption|]. split; [constructor; [apply RH_n|assumption]|].
    cbn [length]. rewrite I2. replace (S (S (length r)) + 1) with (length r + 1 + 1 * 2) by lia. rewrite Nat.div_add by lia. lia.
Qed.
Lemma level_bind L T o h : forall k n1 n2 i, length n1 <= k -> length n1 = length n2 -> Forall (fun x => length x = n) n1 -> Forall (fun x => length x = n) n2 ->
  ltree_level P seed L T o h i n1 = ltree_level P seed L T o h i n2 ->
  n1 = n2 \/ coll (level_queries P seed L T o h i n1) (level_queries P seed L T o h i n2).
Proof.
  induction k as [|k IH]; intros [|a1 [|b1 r1]] [|a2 [|b2 r2]] i Hk Hl F1 F2 H; try discriminate Hl; try (cbn in Hk; lia); try (now left).
  cbn [ltree_level] in H. injection H as H1 H2. cbn [level_queries].
  inversion F1 as [|? ? Ha1 F1']; subst. inversion F1' as [|? ? Hb1 F1'']; subst.
  inversion F2 as [|? ? Ha2 F2']; subst. inversion F2' as [|? ? Hb2 F2'']; subst.
  apply IH in H2; [|cbn in Hk; lia|cbn in Hl; lia|assumption|assumption].
  destruct H2 as [->|H2].
  - destruct (node_dec _ a1 b1 a2 b2 (level_queries P seed L T o h (S i) r2) (level_queries P seed L T o h (S i) r2) Ha1 Hb1 Ha2 Hb2 H1) as [[-> ->]|Hc]; [now left|now right].
  - right. revert H2. apply coll_mono; apply incl_tl, incl_refl.
Qed.
Lemma half_lt x k : 2 <= x -> x <= S k + 1 -> 1 <= (x + 1) / 2 <= k + 1.
Proof.
  intros H1 H2. split; [apply Nat.div_le_lower_bound; lia|].
  assert ((x + 1) / 2 < k + 2); [apply Nat.div_lt_upper_bound|]; lia.
Qed.
Lemma ltree_bind L T o : forall k h n1 n2, 1 <= length n1 <= k + 1 -> length n1 = length n2 -> Forall (fun x => length x = n) n1 -> Forall (fun x => length x = n) n2 ->
  ltree P seed L T o k h n1 = ltree P seed L T o k h n2 ->
  n1 = n2 \/ coll (ltree_queries P seed L T o k h n1) (ltree_queries P seed L T o k h n2).
Proof.
  induction k as [|k IH]; intros h n1 n2 Hk Hl F1 F2 H; cbn [ltree ltree_queries] in *.
  - left. destruct n1 as [|a [|b r]]; destruct n2 as [|a2 [|b2 r2]]; cbn in *; try lia. now subst.
  - rewrite <- Hl in *. destruct (length n1 <=? 1) eqn:E.
    + apply Nat.leb_le in E. left. destruct n1 as [|a [|b r]]; destruct n2 as [|a2 [|b2 r2]]; cbn in *; try lia. now subst.
    + apply Nat.leb_gt in E. destruct (level_n L T o h (length n1) n1 0 (le_n _) F1) as [G1 E1].
      assert (Hle : length n2 <= length n1) by lia.
      destruct (level_n L T o h (length n1) n2 0 Hle F2) as [G2 E2].
      apply IH in H; [|rewrite E1; now apply half_lt|rewrite E1, E2, Hl; reflexivity|assumption|assumption].
      destruct H as [H|H].
      * apply (level_bind L T o h (length n1)) in H; [|lia|assumption..]. destruct H as [->|H]; [now left|right].
        revert H. apply coll_mono; apply incl_appl, incl_refl.
      * right. revert H. apply coll_mono; apply incl_appr, incl_refl.
Qed.
Lemma ltree_n L T o : forall k h nodes, 1 <= length nodes -> Forall (fun x => length x = n) nodes -> length (ltree P seed L T o k h nodes) = n.
Proof.
  assert (Hh : forall nodes : list bytes, 1 <= length nodes -> Forall (fun x => length x = n) nodes -> length (hd [] nodes) = n).
  { intros [|a r] H F; [cbn in H; lia|]. inversion F. now subst. }
  induction k as [|k IH]; intros h nodes H F; cbn [ltree]; [now apply Hh|].
  destruct (length nodes <=? 1) eqn:E; [now apply Hh|]. apply Nat.leb_gt in E.
  destruct (level_n L T o h (length nodes) nodes 0 (le_n _) F) as [G1 E1]. apply IH; [|exact G1]. rewrite E1. apply Nat.div_le_lower_bound; lia.
Qed.

(** *** Chains *)
Lemma chain_n L T o X c i s : length X = n -> length (chain P seed L T o X c i s) = n.
Proof. destruct s; [auto|]. intros _. apply Hn. Qed.
Lemma chain_split L T o X c i s t : chain P seed L T o X c i (s + t) = chain P seed L T o (chain P seed L T o X c i s) c (i + s) t.
Proof.
  induction t as [|t IH]; [now rewrite Nat.add_0_r|]. rewrite Nat.add_succ_r. cbn [chain]. rewrite IH, Nat.add_assoc. reflexivity.
Qed.
Lemma chain_queries_split L T o X c i s t : chain_queries P seed L T o X c i (s + t) =
  chain_queries P seed L T o X c i s ++ chain_queries P seed L T o (chain P seed L T o X c i s) c (i + s) t.
Proof.
  induction t as [|t IH]; [rewrite Nat.add_0_r; cbn [chain_queries]; now rewrite app_nil_r|].
  rewrite Nat.add_succ_r. cbn [chain_queries]. rewrite IH, chain_split, <- app_assoc, Nat.add_assoc. reflexivity.
Qed.
Lemma chain_bind L T o c i : forall s X Y, length X = n -> length Y = n ->
  chain P seed L T o X c i s = chain P seed L T o Y c i s ->
  X = Y \/ coll (chain_queries P seed L T o X c i s) (chain_queries P seed L T o Y c i s).
Proof.
  induction s as [|s IH]; intros X Y HX HY H; cbn [chain] in H; [now left|]. cbn [chain_queries].
  destruct (list_eq_dec N.eq_dec (chain P seed L T o X c i s) (chain P seed L T o Y c i s)) as [He|He].
  - apply IH in He; [|assumption..]. destruct He as [->|Hc]; [now left|right]. revert Hc. apply coll_mono; apply incl_appl, incl_refl.
  - right. exists (step_query P seed (OTS L T o (N.of_nat c) (N.of_nat (i + s))) (chain P seed L T o X c i s)),
      (step_query P seed (OTS L T o (N.of_nat c) (N.of_nat (i + s))) (chain P seed L T o Y c i s)).
    split; [apply in_app_iff; right; now left|]. split; [apply in_app_iff; right; now left|].
    split; [|split; [reflexivity|split; [exact H|exact I]]].
    intros Hq. apply step_query_inj in Hq; [now apply He|now apply chain_n..].
Qed.
Lemma chain_queries_adr L T o X c i s q : In q (chain_queries P seed L T o X c i s) ->
  exists t x, q = Qstep (OTS L T o (N.of_nat c) (N.of_nat (i + t)) 0) x /\ t < s.
Proof.
  induction s as [|s IH]; cbn [chain_queries]; [intros []|]. rewrite in_app_iff. intros [H|[<-|[]]].
  - destruct (IH H) as [t [x [-> Ht]]]. exists t, x. split; [reflexivity|lia].
  - eexists s, _. split; [reflexivity|lia].
Qed.
Lemma wots_queries_adr L T o M sig q : In q (wots_queries P seed L T o M sig) ->
  exists c t x, q = Qstep (OTS L T o (N.of_nat c) (N.of_nat t) 0) x /\ c < sp_len P /\ nth c (wots_digits P M) 0 <= t.
Proof.
  unfold wots_queries. intros H. apply in_concat in H. destruct H as [l [Hl Hq]]. apply in_map_iff in Hl. destruct Hl as [c [<- Hc]].
  cbv zeta in Hq. apply chain_queries_adr in Hq. destruct Hq as [t [x [-> Ht]]]. apply in_seq in Hc.
  eexists c, _, x. split; [reflexivity|]. split; lia.
Qed.
Lemma level_queries_adr L T o h : forall k nodes i q, length nodes <= k -> In q (level_queries P seed L T o h i nodes) -> exists a x, q = Qnode a x.
Proof.
  induction k as [|k IH]; intros [|a [|b r]] i q Hk Hq; try (cbn in Hk; lia); cbn [level_queries] in Hq; try contradiction.
  destruct Hq as [<-|Hq]; [eexists _, _; reflexivity|]. apply (IH r (S i)); [cbn in Hk; lia|exact Hq].
Qed.
Lemma ltree_queries_adr L T o : forall k h nodes q, In q (ltree_queries P seed L T o k h nodes) -> exists a x, q = Qnode a x.
Proof.
  induction k as [|k IH]; intros h nodes q; cbn [ltree_queries]; [intros []|]. destruct (length nodes <=? 1); [intros []|].
  rewrite in_app_iff. intros [H|H]; [|now apply IH in H]. eapply level_queries_adr; [apply le_n|exact H].
Qed.
Lemma climb_queries_adr L T : forall auth nd j i q, In q (climb_queries P seed L T nd j i auth) -> exists a x, q = Qnode a x.
Proof.
  induction auth as [|a auth IH]; intros nd j i q; cbn [climb_queries]; [intros []|]. intros [<-|H]; [|now apply IH in H].
  destruct (N.even i); eexists _, _; reflexivity.
Qed.

Lemma pieces_n : forall k b, k * n <= length b -> Forall (fun x => length x = n) (pieces P k b) /\ length (pieces P k b) = k.
Proof.
  induction k as [|k IH]; intros b H; cbn [pieces]; [now split|]. cbn in H. destruct (IH (skipn n b)) as [I1 I2]; [rewrite skipn_length; lia|].
  split; [constructor; [apply firstn_length_le; lia|exact I1]|]. cbn. now rewrite I2.
Qed.
Lemma pieces_nth : forall k b c, c < k -> nth c (pieces P k b) [] = firstn n (skipn (c * n) b).
Proof.
  induction k as [|k IH]; intros b c Hc; [lia|]. cbn [pieces]. destruct c as [|c]; [reflexivity|]. cbn [nth].
  rewrite IH by lia. rewrite skipn_skipn. f_equal. f_equal. lia.
Qed.

(** *** One layer *)
Definition undominated : Prop := forall M1 M2, length M1 = n -> bytes_ok M1 -> length M2 = n -> bytes_ok M2 -> M1 <> M2 ->
  exists i, i < sp_len P /\ nth i (wots_digits P M2) 0 < nth i (wots_digits P M1) 0.
Lemma pk_n L T o M sig : Forall (fun x => length x = n) sig -> length sig = sp_len P ->
  Forall (fun x => length x = n) (wots_pkFromSig P seed L T o M sig) /\ length (wots_pkFromSig P seed L T o M sig) = sp_len P.
Proof.
  intros F Hl. split; [|unfold wots_pkFromSig; now rewrite map_length, seq_length].
  apply Forall_forall. intros x Hx. unfold wots_pkFromSig in Hx. apply in_map_iff in Hx. destruct Hx as [c [<- Hc]].
  apply chain_n. rewrite Forall_forall in F. apply F. apply nth_In. apply in_seq in Hc. lia.
Qed.

Hypothesis HD : undominated.
Hypothesis Hdig : forall M i, nth i (wots_digits P M) 0 <= sp_w P - 1.
Hypothesis Hlen : 1 <= sp_len P.
Hypothesis Hth : 1 <= sp_th P.

Lemma wots_break L T o M1 M2 s1 s2 : length M1 = n -> bytes_ok M1 -> length M2 = n -> bytes_ok M2 -> M1 <> M2 ->
  Forall (fun x => length x = n) s1 -> length s1 = sp_len P -> Forall (fun x => length x = n) s2 -> length s2 = sp_len P ->
  wots_pkFromSig P seed L T o M1 s1 = wots_pkFromSig P seed L T o M2 s2 ->
  coll (wots_queries P seed L T o M1 s1) (wots_queries P seed L T o M2 s2) \/
  exists c s x, c < sp_len P /\ In (Qstep (OTS L T o (N.of_nat c) (N.of_nat s) 0) x) (wots_queries P seed L T o M2 s2) /\
    nth c (wots_digits P M1) 0 = S s /\ answer P seed (Qstep (OTS L T o (N.of_nat c) (N.of_nat s) 0) x) = nth c s1 [].
Proof.
  intros Hm1 Hb1 Hm2 Hb2 Hne F1 L1 F2 L2 He. destruct (HD M1 M2 Hm1 Hb1 Hm2 Hb2 Hne) as [c [Hc Hlt]].
  set (b1 := nth c (wots_digits P M1) 0) in *. set (b2 := nth c (wots_digits P M2) 0) in *.
  assert (Hw : b1 <= sp_w P - 1) by apply Hdig.
  assert (Hx1 : length (nth c s1 []) = n) by (rewrite Forall_forall in F1; apply F1, nth_In; lia).
  assert (Hx2 : length (nth c s2 []) = n) by (rewrite Forall_forall in F2; apply F2, nth_In; lia).
  assert (Hc' : chain P seed L T o (nth c s1 []) c b1 (sp_w P - 1 - b1) = chain P seed L T o (nth c s2 []) c b2 (sp_w P - 1 - b2)).
  { apply (f_equal (fun l => nth c l [])) in He. unfold wots_pkFromSig in He.
    pose (f1 := fun c => let b := nth c (wots_digits P M1) 0 in chain P seed L T o (nth c s1 []) c b (sp_w P - 1 - b)).
    pose (f2 := fun c => let b := nth c (wots_digits P M2) 0 in chain P seed L T o (nth c s2 []) c b (sp_w P - 1 - b)).
    fold f1 f2 in He.
    rewrite (nth_indep _ [] (f1 0)) in He by (rewrite map_length, seq_length; lia). rewrite (nth_indep (map f2 _) [] (f2 0)) in He by (rewrite map_length, seq_length; lia).
    rewrite (map_nth f1), (map_nth f2), seq_nth in He by lia. exact He. }
  assert (HI : forall q M s, c < sp_len P -> In q (chain_queries P seed L T o (nth c s []) c (nth c (wots_digits P M) 0) (sp_w P - 1 - nth c (wots_digits P M) 0)) -> In q (wots_queries P seed L T o M s)).
  { intros q M s _ Hq. unfold wots_queries. apply in_concat. eexists. split; [apply in_map_iff; exists c; split; [reflexivity|apply in_seq; lia]|exact Hq]. }
  replace (sp_w P - 1 - b2) with ((b1 - b2) + (sp_w P - 1 - b1)) in Hc' by lia. rewrite chain_split in Hc'.
  replace (b2 + (b1 - b2)) with b1 in Hc' by lia.
  assert (Hq2 : forall q, In q (chain_queries P seed L T o (nth c s2 []) c b2 (b1 - b2)) \/
     In q (chain_queries P seed L T o (chain P seed L T o (nth c s2 []) c b2 (b1 - b2)) c b1 (sp_w P - 1 - b1)) -> In q (wots_queries P seed L T o M2 s2)).
  { intros q Hq. apply HI; [exact Hc|]. fold b2. replace (sp_w P - 1 - b2) with ((b1 - b2) + (sp_w P - 1 - b1)) by lia.
    rewrite chain_queries_split. replace (b2 + (b1 - b2)) with b1 by lia. now apply in_app_iff. }
  apply chain_bind in Hc'; [|exact Hx1|now apply chain_n]. destruct Hc' as [Hv|Hcl].
  - right. destruct (b1 - b2) as [|t] eqn:Et; [lia|]. cbn [chain] in Hv. cbn [chain_queries] in Hq2.
    eexists c, (b2 + t), _. split; [exact Hc|]. split; [apply Hq2; left; apply in_app_iff; right; left; reflexivity|].
    split; [fold b1; lia|]. symmetry. exact Hv.
  - left. revert Hcl. apply coll_mono.
    + intros q Hq. apply HI; [exact Hc|exact Hq].
    + intros q Hq. apply Hq2. now right.
Qed.

Lemma root_n L T i M s a : Forall (fun x => length x = n) s -> length s = sp_len P ->
  length (rootFromSig P seed L T i M s a) = n.
Proof. intros F Hl. destruct (pk_n L T i M s F Hl) as [G E1]. apply climb_n, ltree_n; [lia|exact G]. Qed.

Lemma root_b L T i M s a : 1 <= length a -> bytes_ok (rootFromSig P seed L T i M s a).
Proof. unfold rootFromSig. destruct a as [|x a]; cbn [length climb]; [lia|]. intros _. apply climb_b. destruct (N.even i); apply RH_b. Qed.

Lemma layer_break L T i M1 M2 s1 s2 a1 a2 : length M1 = n -> bytes_ok M1 -> length M2 = n -> bytes_ok M2 -> M1 <> M2 ->
  Forall (fun x => length x = n) s1 -> length s1 = sp_len P -> Forall (fun x => length x = n) s2 -> length s2 = sp_len P ->
  Forall (fun x => length x = n) a1 -> Forall (fun x => length x = n) a2 -> length a1 = length a2 ->
  rootFromSig P seed L T i M1 s1 a1 = rootFromSig P seed L T i M2 s2 a2 ->
  coll (root_queries P seed L T i M1 s1 a1) (root_queries P seed L T i M2 s2 a2) \/
  exists c s x, c < sp_len P /\ In (Qstep (OTS L T i (N.of_nat c) (N.of_nat s) 0) x) (root_queries P seed L T i M2 s2 a2) /\
    nth c (wots_digits P M1) 0 = S s /\ answer P seed (Qstep (OTS L T i (N.of_nat c) (N.of_nat s) 0) x) = nth c s1 [].
Proof.
  intros Hm1 Hb1 Hm2 Hb2 Hne F1 L1 F2 L2 G1 G2 Ha He. unfold rootFromSig in He.
  destruct (pk_n L T i M1 s1 F1 L1) as [K1 E1]. destruct (pk_n L T i M2 s2 F2 L2) as [K2 E2].
  unfold root_queries. cbv zeta.
  apply climb_bind in He; [|assumption..|apply ltree_n; [lia|assumption]|apply ltree_n; [lia|assumption]].
  destruct He as [He|He].
  - apply ltree_bind in He; [|lia|lia|assumption..]. destruct He as [He|He].
    + apply wots_break in He; [|assumption..]. destruct He as [He|[c [s [x [H1 [H2 H3]]]]]].
      * left. revert He. apply coll_mono; apply incl_appl, incl_refl.
      * right. exists c, s, x. split; [exact H1|]. split; [apply in_app_iff; now left|exact H3].
    + left. revert He. apply coll_mono; apply incl_appr, incl_appl, incl_refl.
  - left. revert He. apply coll_mono; apply incl_appr, incl_appr, incl_refl.
Qed.

(** *** The same value signed: one layer *)
Lemma wots_same L T o M s1 s2 : Forall (fun x => length x = n) s1 -> length s1 = sp_len P -> Forall (fun x => length x = n) s2 -> length s2 = sp_len P ->
  wots_pkFromSig P seed L T o M s1 = wots_pkFromSig P seed L T o M s2 ->
  s1 = s2 \/ coll (wots_queries P seed L T o M s1) (wots_queries P seed L T o M s2).
Proof.
  intros F1 L1 F2 L2 He.
  assert (Hx : forall c, c < sp_len P -> nth c s1 [] = nth c s2 [] \/ coll (wots_queries P seed L T o M s1) (wots_queries P seed L T o M s2)).
  { intros c Hc.
    assert (Hx1 : length (nth c s1 []) = n) by (rewrite Forall_forall in F1; apply F1, nth_In; lia).
    assert (Hx2 : length (nth c s2 []) = n) by (rewrite Forall_forall in F2; apply F2, nth_In; lia).
    set (b := nth c (wots_digits P M) 0).
    assert (Hc' : chain P seed L T o (nth c s1 []) c b (sp_w P - 1 - b) = chain P seed L T o (nth c s2 []) c b (sp_w P - 1 - b)).
    { apply (f_equal (fun l => nth c l [])) in He. unfold wots_pkFromSig in He.
      pose (f1 := fun c => let b := nth c (wots_digits P M) 0 in chain P seed L T o (nth c s1 []) c b (sp_w P - 1 - b)).
      pose (f2 := fun c => let b := nth c (wots_digits P M) 0 in chain P seed L T o (nth c s2 []) c b (sp_w P - 1 - b)).
      fold f1 f2 in He.
      rewrite (nth_indep _ [] (f1 0)) in He by (rewrite map_length, seq_length; lia). rewrite (nth_indep (map f2 _) [] (f2 0)) in He by (rewrite map_length, seq_length; lia).
      rewrite (map_nth f1), (map_nth f2), seq_nth in He by lia. exact He. }
    apply chain_bind in Hc'; [|assumption..]. destruct Hc' as [Hc'|Hc']; [now left|right].
    revert Hc'. apply coll_mono; intros q Hq; unfold wots_queries; apply in_concat; eexists; (split; [apply in_map_iff; exists c; split; [reflexivity|apply in_seq; lia]|exact Hq]). }
  destruct (list_eq_dec (list_eq_dec N.eq_dec) s1 s2) as [|Hne]; [now left|right].
  assert (Hd : forall k, k <= sp_len P -> (forall c, c < k -> nth c s1 [] = nth c s2 []) \/ coll (wots_queries P seed L T o M s1) (wots_queries P seed L T o M s2)).
  { induction k as [|k IH]; intros Hk; [left; lia|]. destruct (IH ltac:(lia)) as [Hl|]; [|now right]. destruct (Hx k Hk) as [Hk'|]; [|now right].
    left. intros c Hc. destruct (Nat.eq_dec c k) as [->|]; [exact Hk'|apply Hl; lia]. }
  destruct (Hd (sp_len P) (le_n _)) as [Hl|]; [|assumption]. exfalso. apply Hne. apply (nth_ext s1 s2 [] []); [congruence|]. intros c Hc. apply Hl. lia.
Qed.
Lemma layer_same L T i M s1 s2 a1 a2 :
  Forall (fun x => length x = n) s1 -> length s1 = sp_len P -> Forall (fun x => length x = n) s2 -> length s2 = sp_len P ->
  Forall (fun x => length x = n) a1 -> Forall (fun x => length x = n) a2 -> length a1 = length a2 ->
  rootFromSig P seed L T i M s1 a1 = rootFromSig P seed L T i M s2 a2 ->
  (s1 = s2 /\ a1 = a2) \/ coll (root_queries P seed L T i M s1 a1) (root_queries P seed L T i M s2 a2).
Proof.
  intros F1 L1 F2 L2 G1 G2 Ha He. unfold rootFromSig in He.
  destruct (pk_n L T i M s1 F1 L1) as [K1 E1]. destruct (pk_n L T i M s2 F2 L2) as [K2 E2].
  unfold root_queries. cbv zeta.
  apply climb_bind_path in He; [|assumption..|apply ltree_n; [lia|assumption]|apply ltree_n; [lia|assumption]].
  destruct He as [[He ->]|He].
  - apply ltree_bind in He; [|lia|lia|assumption..]. destruct He as [He|He].
    + apply wots_same in He; [|assumption..]. destruct He as [->|He]; [left; now split|].
      right. revert He. apply coll_mono; apply incl_appl, incl_refl.
    + right. revert He. apply coll_mono; apply incl_appr, incl_appl, incl_refl.
  - right. revert He. apply coll_mono; apply incl_appr, incl_appr, incl_refl.
Qed.

Lemma root_queries_steps L T i M s a q : In q (root_queries P seed L T i M s a) ->
  match q with Qstep b _ => exists c t, b = OTS L T i (N.of_nat c) (N.of_nat t) 0 /\ nth c (wots_digits P M) 0 <= t | _ => True end.
Proof.
  unfold root_queries. cbv zeta. rewrite !in_app_iff. intros [H|[H|H]].
  - apply wots_queries_adr in H. destruct H as [c [t [x [-> [_ H]]]]]. exists c, t. now split.
  - apply ltree_queries_adr in H. destruct H as [b [x ->]]. exact I.
  - apply climb_queries_adr in H. destruct H as [b [x ->]]. exact I.
Qed.
Lemma layer_queries_steps idx : forall cnt k M sigs q, In q (layer_queries P seed idx M k cnt sigs) ->
  match q with Qstep b _ => exists k' c t T o, k <= k' /\ b = OTS (N.of_nat k') T o (N.of_nat c) (N.of_nat t) 0 | _ => True end.
Proof.
  induction cnt as [|cnt IH]; intros k M sigs q; cbn [layer_queries]; [intros []|]. cbv zeta. rewrite in_app_iff. intros [H|H].
  - apply root_queries_steps in H. destruct q; [exact I..|]. destruct H as [c [t [-> _]]]. eexists k, c, t, _, _. split; [lia|reflexivity].
  - apply IH in H. destruct q; [exact I..|]. destruct H as [k' [c [t [T [o [H1 H2]]]]]]. exists k', c, t, T, o. split; [lia|exact H2].
Qed.

(** *** All layers *)
Lemma mt_break idx : forall cnt k M1 M2 s1 s2, length M1 = n -> bytes_ok M1 -> length M2 = n -> bytes_ok M2 -> M1 <> M2 ->
  cnt * ((sp_len P + sp_th P) * n) <= length s1 -> cnt * ((sp_len P + sp_th P) * n) <= length s2 -> 
  mt_climb P seed idx M1 k cnt s1 = mt_climb P seed idx M2 k cnt s2 ->
  coll (layer_queries P seed idx M1 k cnt s1) (layer_queries P seed idx M2 k cnt s2) \/
  exists j c s x, j < cnt /\ c < sp_len P /\
    let a := OTS (N.of_nat (k + j)) (tree_of P idx (k + j)) (leaf_of P idx (k + j)) (N.of_nat c) (N.of_nat s) 0 in
    In (Qstep a x) (layer_queries P seed idx M2 k cnt s2) /\ (forall y, ~ In (Qstep a y) (layer_queries P seed idx M1 k cnt s1)) /\
    nth c (wots_digits P (mt_climb P seed idx M1 k j s1)) 0 = S s /\
    answer P seed (Qstep a x) = firstn n (skipn (c * n) (skipn (j * ((sp_len P + sp_th P) * n)) s1)).
Proof.
  induction cnt as [|cnt IH]; intros k M1 M2 s1 s2 Hm1 Hb1 Hm2 Hb2 Hne L1 L2 H; cbn [mt_climb] in H; [contradiction|].
  cbv zeta in H. cbn [layer_queries]. cbv zeta.
  set (sz := (sp_len P + sp_th P) * n) in *.
  assert (Hsz : sp_len P * n + sp_th P * n = sz) by (unfold sz; lia).
  cbn [Nat.mul] in L1, L2.
  destruct (pieces_n (sp_len P) s1) as [F1 E1]; [lia|]. destruct (pieces_n (sp_len P) s2) as [F2 E2]; [lia|].
  destruct (pieces_n (sp_th P) (skipn (sp_len P * n) s1)) as [G1 A1]; [rewrite skipn_length; lia|].
  destruct (pieces_n (sp_th P) (skipn (sp_len P * n) s2)) as [G2 A2]; [rewrite skipn_length; lia|].
  set (L := N.of_nat k) in *. set (T := tree_of P idx k) in *. set (o := leaf_of P idx k) in *.
  set (p1 := pieces P (sp_len P) s1) in *. set (p2 := pieces P (sp_len P) s2) in *.
  set (q1 := pieces P (sp_th P) (skipn (sp_len P * n) s1)) in *. set (q2 := pieces P (sp_th P) (skipn (sp_len P * n) s2)) in *.
  destruct (list_eq_dec N.eq_dec (rootFromSig P seed L T o M1 p1 q1) (rootFromSig P seed L T o M2 p2 q2)) as [Hr|Hr].
  - apply layer_break in Hr; [|assumption..|congruence]. destruct Hr as [Hr|[c [s [x [H1 [H2 [H3 H4]]]]]]].
    + left. revert Hr. apply coll_mono; apply incl_appl, incl_refl.
    + right. exists 0, c, s, x. split; [lia|]. split; [exact H1|]. rewrite Nat.add_0_r. fold L T o. cbv zeta.
      split; [apply in_app_iff; now left|]. split.
      { intros y Hy. apply in_app_iff in Hy. destruct Hy as [Hy|Hy].
        - apply root_queries_steps in Hy. destruct Hy as [c' [t [Ht Hd]]]. injection Ht as Hc Ht. apply Nat2N.inj in Hc, Ht. subst c' t. lia.
        - apply layer_queries_steps in Hy. destruct Hy as [k' [c' [t [T' [o' [Hk Ht]]]]]]. injection Ht as Hk' _. apply Nat2N.inj in Hk'. lia. }
      split; [exact H3|]. rewrite H4. unfold p1. rewrite pieces_nth by exact H1. cbn [Nat.mul]. reflexivity.
  - apply IH in H; [|apply root_n; assumption| | apply root_n; assumption| |exact Hr|rewrite skipn_length; lia|rewrite skipn_length; lia].
    + destruct H as [H|[j [c [s [x [Hj [Hc [H2 [H3 [H4 H5]]]]]]]]]].
      * left. revert H. apply coll_mono; apply incl_appr, incl_refl.
      * right. exists (S j), c, s, x. rewrite <- Nat.add_succ_comm. split; [lia|]. split; [exact Hc|]. cbv zeta.
        split; [apply in_app_iff; now right|]. split.
        { intros y Hy. apply in_app_iff in Hy. destruct Hy as [Hy|Hy]; [|exact (H3 y Hy)].
          apply root_queries_steps in Hy. destruct Hy as [c' [t [Ht _]]]. unfold L in Ht. assert (Hk : N.of_nat (S k + j) = N.of_nat k) by congruence. apply Nat2N.inj in Hk. lia. }
        split; [exact H4|]. rewrite H5. replace (skipn (j * sz) (skipn sz s1)) with (skipn (S j * sz) s1); [reflexivity|]. rewrite skipn_skipn. f_equal. cbn [Nat.mul]. lia.
    + apply root_b; lia.
    + apply root_b; lia.
Qed.
(** the same value at the bottom, other signature bytes *)
Lemma mt_other idx : forall cnt k M s1 s2, length M = n -> bytes_ok M -> s1 <> s2 ->
  length s1 = cnt * ((sp_len P + sp_th P) * n) -> length s2 = cnt * ((sp_len P + sp_th P) * n) ->
  mt_climb P seed idx M k cnt s1 = mt_climb P seed idx M k cnt s2 ->
  coll (layer_queries P seed idx M k cnt s1) (layer_queries P seed idx M k cnt s2) \/
  exists j c s x, j < cnt /\ c < sp_len P /\
    let a := OTS (N.of_nat (k + j)) (tree_of P idx (k + j)) (leaf_of P idx (k + j)) (N.of_nat c) (N.of_nat s) 0 in
    In (Qstep a x) (layer_queries P seed idx M k cnt s2) /\ (forall y, ~ In (Qstep a y) (layer_queries P seed idx M k cnt s1)) /\
    nth c (wots_digits P (mt_climb P seed idx M k j s1)) 0 = S s /\
    answer P seed (Qstep a x) = firstn n (skipn (c * n) (skipn (j * ((sp_len P + sp_th P) * n)) s1)).
Proof.
  induction cnt as [|cnt IH]; intros k M s1 s2 Hm Hb Hne L1 L2 HC; cbn [mt_climb] in HC.
  { exfalso. apply Hne. destruct s1; [|discriminate]. destruct s2; [reflexivity|discriminate]. }
  cbv zeta in HC. cbn [layer_queries]. cbv zeta.
  set (sz := (sp_len P + sp_th P) * n) in *.
  assert (Hsz : sp_len P * n + sp_th P * n = sz) by (unfold sz; lia).
  cbn [Nat.mul] in L1, L2.
  destruct (pieces_n (sp_len P) s1) as [F1 E1]; [lia|]. destruct (pieces_n (sp_len P) s2) as [F2 E2]; [lia|].
  destruct (pieces_n (sp_th P) (skipn (sp_len P * n) s1)) as [G1 A1]; [rewrite skipn_length; lia|].
  destruct (pieces_n (sp_th P) (skipn (sp_len P * n) s2)) as [G2 A2]; [rewrite skipn_length; lia|].
  set (L := N.of_nat k) in *. set (T := tree_of P idx k) in *. set (o := leaf_of P idx k) in *.
  assert (Hstep : forall M1 M2 s1' s2', (coll (layer_queries P seed idx M1 (S k) cnt s1') (layer_queries P seed idx M2 (S k) cnt s2') \/
     exists j c s x, j < cnt /\ c < sp_len P /\
      let a := OTS (N.of_nat (S k + j)) (tree_of P idx (S k + j)) (leaf_of P idx (S k + j)) (N.of_nat c) (N.of_nat s) 0 in
      In (Qstep a x) (layer_queries P seed idx M2 (S k) cnt s2') /\ (forall y, ~ In (Qstep a y) (layer_queries P seed idx M1 (S k) cnt s1')) /\
      nth c (wots_digits P (mt_climb P seed idx M1 (S k) j s1')) 0 = S s /\
      answer P seed (Qstep a x) = firstn n (skipn (c * n) (skipn (j * sz) s1'))) ->
     M1 = rootFromSig P seed L T o M (pieces P (sp_len P) s1) (pieces P (sp_th P) (skipn (sp_len P * n) s1)) ->
     M2 = rootFromSig P seed L T o M (pieces P (sp_len P) s2) (pieces P (sp_th P) (skipn (sp_len P * n) s2)) -> s1' = skipn sz s1 -> s2' = skipn sz s2 ->
     coll (root_queries P seed L T o M (pieces P (sp_len P) s1) (pieces P (sp_th P) (skipn (sp_len P * n) s1)) ++ layer_queries P seed idx M1 (S k) cnt s1')
          (root_queries P seed L T o M (pieces P (sp_len P) s2) (pieces P (sp_th P) (skipn (sp_len P * n) s2)) ++ layer_queries P seed idx M2 (S k) cnt s2') \/
     exists j c s x, j < S cnt /\ c < sp_len P /\
      let a := OTS (N.of_nat (k + j)) (tree_of P idx (k + j)) (leaf_of P idx (k + j)) (N.of_nat c) (N.of_nat s) 0 in
      In (Qstep a x) (root_queries P seed L T o M (pieces P (sp_len P) s2) (pieces P (sp_th P) (skipn (sp_len P * n) s2)) ++ layer_queries P seed idx M2 (S k) cnt s2') /\
      (forall y, ~ In (Qstep a y) (root_queries P seed L T o M (pieces P (sp_len P) s1) (pieces P (sp_th P) (skipn (sp_len P * n) s1)) ++ layer_queries P seed idx M1 (S k) cnt s1')) /\
      nth c (wots_digits P (mt_climb P seed idx M k j s1)) 0 = S s /\
      answer P seed (Qstep a x) = firstn n (skipn (c * n) (skipn (j * sz) s1))).
  { intros M1 M2 s1' s2' [HX|[j [c [s [x [Hj [Hc [H2 [H3 [H4 H5]]]]]]]]]] EM1 EM2 Es1 Es2.
    - left. revert HX. apply coll_mono; apply incl_appr, incl_refl.
    - right. exists (S j), c, s, x. rewrite <- Nat.add_succ_comm. split; [lia|]. split; [exact Hc|]. cbv zeta.
      split; [apply in_app_iff; now right|]. split.
      { intros y Hy. apply in_app_iff in Hy. destruct Hy as [Hy|Hy]; [|exact (H3 y Hy)].
        apply root_queries_steps in Hy. destruct Hy as [c' [t [Ht _]]]. unfold L in Ht. assert (Hk : N.of_nat (S k + j) = N.of_nat k) by congruence. apply Nat2N.inj in Hk. lia. }
      split; [cbn [mt_climb]; cbv zeta; fold L T o sz; rewrite <- EM1, <- Es1; exact H4|]. rewrite H5, Es1. replace (skipn (j * sz) (skipn sz s1)) with (skipn (S j * sz) s1); [reflexivity|]. rewrite skipn_skipn. f_equal. cbn [Nat.mul]. lia. }
  set (p1 := pieces P (sp_len P) s1) in *. set (p2 := pieces P (sp_len P) s2) in *.
  set (q1 := pieces P (sp_th P) (skipn (sp_len P * n) s1)) in *. set (q2 := pieces P (sp_th P) (skipn (sp_len P * n) s2)) in *.
  destruct (list_eq_dec N.eq_dec (rootFromSig P seed L T o M p1 q1) (rootFromSig P seed L T o M p2 q2)) as [Hr|Hr].
  - destruct (layer_same L T o M p1 p2 q1 q2) as [[HP HQ]|Hcoll]; [assumption..|congruence|exact Hr| |].
    + apply Hstep; try reflexivity. rewrite <- Hr in HC |- *. apply (IH (S k)); [apply root_n; assumption|apply root_b; lia| |rewrite skipn_length; lia|rewrite skipn_length; lia|exact HC].
      intros Hs. apply Hne. unfold p1, p2, q1, q2 in HP, HQ. apply (f_equal (@concat N)) in HP, HQ. rewrite !pieces_concat in HP, HQ by (rewrite ?skipn_length; lia).
      rewrite <- (firstn_skipn (sp_len P * n) s1), <- (firstn_skipn (sp_len P * n) s2), HP. f_equal.
      rewrite <- (firstn_skipn (sp_th P * n) (skipn (sp_len P * n) s1)), <- (firstn_skipn (sp_th P * n) (skipn (sp_len P * n) s2)), HQ. f_equal.
      rewrite !skipn_skipn. replace (sp_th P * n + sp_len P * n) with sz by lia. exact Hs.
    + left. revert Hcoll. apply coll_mono; apply incl_appl, incl_refl.
  - apply Hstep; try reflexivity. apply mt_break; [apply root_n; assumption|apply root_b; lia|apply root_n; assumption|apply root_b; lia|exact Hr|rewrite skipn_length; lia|rewrite skipn_length; lia|exact HC].
Qed.
End Sec.
