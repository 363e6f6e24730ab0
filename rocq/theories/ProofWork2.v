(** The number of hash calls of each function of the reference core and of verification. *)
From Verif Require Import Base Lib ModelUtils ModelParams ModelHash ModelWots ModelCommons ModelCore ModelXmss ModelCost ProofCost ProofCost2 ProofTree ModelWork ProofWork.

(** a part that takes exactly [a] calls *)
Lemma runs_then {A B} (c : cost A) (f : A -> cost B) a K (Q : B -> N -> Prop) :
  runs c a (fun _ l => l = a) -> (a <= K)%N -> (forall x, out c = Ok x -> runs (f x) (K - a) (fun y j => Q y (a + j)%N)) -> runs (cbind c f) K Q.
Proof. intros Hc Ha Hf. apply (runs_bind _ _ a (fun _ => K - a)%N K (fun _ l => l = a)); [exact Hc|exact Ha|]. intros x l Hx _ ->. split; [now apply Hf|lia]. Qed.
Definition sumN (g : nat -> N) (i k : nat) : N := fold_right (fun j t => (g j + t)%N) 0%N (seq i k).
Lemma sumN_S g i k : sumN g i (S k) = (g i + sumN g (S i) k)%N.
Proof. reflexivity. Qed.
Lemma sumN_const c i k : sumN (fun _ => c) i k = (N.of_nat k * c)%N.
Proof. revert i. induction k as [|k IH]; intros i; [reflexivity|]. rewrite sumN_S, IH. lia. Qed.
Lemma sumN_ext g h i k : (forall j, i <= j < i + k -> g j = h j) -> sumN g i k = sumN h i k.
Proof. revert i. induction k as [|k IH]; intros i He; [reflexivity|]. rewrite !sumN_S, IH, (He i) by (intros; try apply He; lia). reflexivity. Qed.
Lemma sumN_le g h i k : (forall j, i <= j < i + k -> (g j <= h j)%N) -> (sumN g i k <= sumN h i k)%N.
Proof. revert i. induction k as [|k IH]; intros i He; [cbn; lia|]. rewrite !sumN_S. apply N.add_le_mono; [apply He; lia|apply IH; intros; apply He; lia]. Qed.
Lemma sumN_add g h i k : (sumN g i k + sumN h i k)%N = sumN (fun j => g j + h j)%N i k.
Proof. revert i. induction k as [|k IH]; intros i; [reflexivity|]. rewrite !sumN_S, <- IH. lia. Qed.
Lemma runs_for_sum {S} k : forall i (body : nat -> S -> cost S) s (g : nat -> N),
  (forall j s, i <= j -> j < i + k -> runs (body j s) (g j) (fun _ l => l = g j)) -> runs (cforN k i body s) (sumN g i k) (fun _ l => l = sumN g i k).
Proof.
  induction k as [|k IH]; intros i body s g Hb; [apply runs_ok; reflexivity|]. cbn [cforN]. rewrite sumN_S.
  apply (runs_then _ _ (g i)); [apply Hb; lia|lia|]. intros x _.
  eapply runs_weak; [apply (IH (Datatypes.S i) body x g); intros; apply Hb; lia|lia|]. intros y l _ ->. reflexivity.
Qed.
Lemma land_le a b : (N.land a b <= b)%N.
Proof. apply N.ldiff_le. apply N.bits_inj. intros i. rewrite N.ldiff_spec, N.land_spec, N.bits_0. now destruct (N.testbit a i), (N.testbit b i). Qed.

Ltac rthen c L := eapply (runs_then _ _ c); [apply L|first [lia|nia]|let z := fresh "z" in intros z _].

Section WithEnv.
Context {E : Env}.
Notation len p := (N.of_nat (wots_len p)).
Notation w1 p := (N.of_nat (wots_w p - 1)).
Notation th p := (N.of_nat (tree_height p)).

Lemma w_hash p x : runs (core_hash_w p x) 1 (fun _ l => l = 1%N).
Proof. split; [cbn; lia|reflexivity]. Qed.
Lemma w_prf p i k : runs (prf_w p i k) 1 (fun _ l => l = 1%N).
Proof. unfold prf_w. repeat rstep. apply w_hash. Qed.
Lemma w_prf_keygen p i k : runs (prf_keygen_w p i k) 1 (fun _ l => l = 1%N).
Proof. unfold prf_keygen_w. repeat rstep. apply w_hash. Qed.
Lemma w_hmsg p R rt idx b o l : runs (hash_message_w p R rt idx b o l) 1 (fun _ l => l = 1%N).
Proof. unfold hash_message_w. repeat rstep. rthen 1%N w_hash. rstep. lia. Qed.
Lemma w_thash_h p i s a : runs (thash_h_w p i s a) 4 (fun _ l => l = 4%N).
Proof.
  unfold thash_h_w. cbv zeta. rthen 1%N w_prf. rthen 1%N w_prf. rthen 1%N w_prf. rstep. rthen 1%N w_hash. rstep. lia.
Qed.
Lemma w_thash_f p i s a : runs (thash_f_w p i s a) 3 (fun _ l => l = 3%N).
Proof. unfold thash_f_w. cbv zeta. rthen 1%N w_prf. rthen 1%N w_prf. rstep. rthen 1%N w_hash. rstep. lia. Qed.
Lemma w_expand p i s a : runs (expand_seed_w p i s a) (len p) (fun _ l => l = len p).
Proof.
  unfold expand_seed_w. cbv zeta. rstep. eapply runs_weak; [apply (runs_for _ _ _ _ 1)|lia|intros; cbv beta in *; lia].
  intros j [o a'] _ _. rthen 1%N w_prf_keygen. rstep. lia.
Qed.
Lemma w_chain_loop p k : forall i o s a, runs (gen_chain_loop_w p k i o s a) (3 * N.of_nat k) (fun _ l => k = 0 \/ i + k <= wots_w p -> l = (3 * N.of_nat k)%N).
Proof.
  induction k as [|k IH]; intros i o s a; cbn [gen_chain_loop_w]; [rstep; reflexivity|].
  destruct (Nat.ltb_spec i (wots_w p)) as [Hi|Hi]; [|rstep; lia]. rthen 3%N w_thash_f.
  destruct z as [x1 x2]. eapply runs_weak; [apply IH|lia|]. intros y l _ Hl Hk. cbv beta in *. rewrite Hl; lia.
Qed.
Lemma w_chain p x i k s a : runs (gen_chain_w p x i k s a) (3 * N.of_nat k) (fun _ l => k = 0 \/ i + k <= wots_w p -> l = (3 * N.of_nat k)%N).
Proof. unfold gen_chain_w. rstep. apply w_chain_loop. Qed.
Lemma w_chain_ok p x i k s a : k = 0 \/ i + k <= wots_w p -> runs (gen_chain_w p x i k s a) (3 * N.of_nat k) (fun _ l => l = (3 * N.of_nat k)%N).
Proof. intros Hk. eapply runs_weak; [apply w_chain|lia|]. auto. Qed.

Definition pkgen_work p : N := (len p + len p * (3 * w1 p))%N.
Lemma w_pkgen p i s a : runs (wots_pkgen_w p i s a) (pkgen_work p) (fun _ l => l = pkgen_work p).
Proof.
  unfold wots_pkgen_w, pkgen_work. rthen (len p) w_expand. destruct z as [pk a'].
  eapply runs_weak; [apply (runs_for _ _ _ _ (3 * w1 p)%N)|lia|intros; cbv beta in *; lia].
  intros j [o a1] _ _. cbv zeta. rstep. eapply (runs_then _ _ (3 * w1 p)%N); [apply w_chain_ok; lia|lia|]. intros [] _. rstep. rstep. lia.
Qed.

(** the digits of a message *)
Lemma base_w_le p k : forall x inx tot bits l, base_w_loop p k x inx tot bits = Ok l -> length l = k /\ Forall (fun d => d <= wots_w p - 1) l.
Proof.
  induction k as [|k IH]; intros x inx tot bits l; cbn [base_w_loop]; [intros [= <-]; split; [reflexivity|constructor]|].
  intros Hb. apply bind_inv in Hb as ([[i1 t1] b1] & _ & Hb). destruct (b1 <? wots_log_w p); [discriminate|].
  apply bind_inv in Hb as (rest & Hr & [= <-]). destruct (IH _ _ _ _ _ Hr) as [I1 I2]. split; [cbn; lia|]. constructor; [|exact I2].
  pose proof (land_le (N.shiftr t1 (N.of_nat (b1 - wots_log_w p))) (w1 p)). lia.
Qed.
Lemma digits_le p m l : chain_lengths p m = Ok l -> length l = wots_len1 p + wots_len2 p /\ Forall (fun d => d <= wots_w p - 1) l.
Proof.
  unfold chain_lengths, wots_checksum, base_w. intros Hb. apply bind_inv in Hb as (l1 & H1 & Hb). apply bind_inv in Hb as (l2 & H2 & [= <-]).
  apply base_w_le in H1 as [A1 A2]. apply base_w_le in H2 as [B1 B2]. split; [rewrite app_length; lia|]. now apply Forall_app.
Qed.
Definition dg (l : list nat) (i : nat) : N := N.of_nat (nth i l 0).
Definition sign_digits p (m : bytes) : N := match chain_lengths p m with Ok l => sumN (dg l) 0 (wots_len p) | _ => 0%N end.
Definition rest_digits p (m : bytes) : N := match chain_lengths p m with Ok l => sumN (fun i => w1 p - dg l i)%N 0 (wots_len p) | _ => 0%N end.
Lemma digit_le p m l i : chain_lengths p m = Ok l -> (dg l i <= w1 p)%N.
Proof.
  intros Hl. apply digits_le in Hl as [_ Hl]. unfold dg. destruct (Nat.ltb_spec i (length l)) as [Hi|Hi].
  - rewrite Forall_forall in Hl. specialize (Hl (nth i l 0) (nth_In _ _ Hi)). lia.
  - rewrite nth_overflow by lia. lia.
Qed.
Lemma digits_sum p m l : chain_lengths p m = Ok l -> (sign_digits p m + rest_digits p m = len p * w1 p)%N.
Proof.
  intros Hl. unfold sign_digits, rest_digits. rewrite Hl, sumN_add. rewrite <- (sumN_const _ 0). apply sumN_ext. intros j _. pose proof (digit_le p m l j Hl). lia.
Qed.
Lemma sign_digits_le p m : (sign_digits p m <= len p * w1 p)%N.
Proof. unfold sign_digits. destruct (chain_lengths p m) as [l| |] eqn:Hl; try apply N.le_0_l. rewrite <- (sumN_const _ 0). apply sumN_le. intros j _. now apply (digit_le p m). Qed.
Lemma rest_digits_le p m : (rest_digits p m <= len p * w1 p)%N.
Proof. unfold rest_digits. destruct (chain_lengths p m) as [l| |] eqn:Hl; try apply N.le_0_l. rewrite <- (sumN_const _ 0). apply sumN_le. intros j _. lia. Qed.
Lemma sumN_scale c g i k : sumN (fun j => c * g j)%N i k = (c * sumN g i k)%N.
Proof. revert i. induction k as [|k IH]; intros i; [cbn; lia|]. rewrite !sumN_S, IH. lia. Qed.

Lemma w_wsign p m i s a : runs (wots_sign_w p m i s a) (len p + 3 * sign_digits p m) (fun _ l => l = (len p + 3 * sign_digits p m)%N).
Proof.
  unfold wots_sign_w. rstep. rthen (len p) w_expand. destruct z as [pk a'].
  match goal with H : chain_lengths p m = Ok ?l |- _ => rename H into Hl; rename l into ls end. unfold sign_digits. rewrite Hl.
  eapply runs_weak; [apply (runs_for_sum _ _ _ _ (fun j => 3 * dg ls j)%N)|rewrite sumN_scale; lia|intros; cbv beta in *; rewrite sumN_scale in *; lia].
  intros j [o a1] _ _. cbv zeta. rstep. match goal with H : rdc ls j = Ok ?d |- _ => apply rdc_inv in H; apply (nth_error_nth _ _ 0) in H; rename H into Hd; rename d into dj end.
  pose proof (digit_le p m ls j Hl) as Hle. unfold dg in *. rewrite Hd in *.
  rstep. eapply (runs_then _ _ (3 * N.of_nat dj)%N); [apply w_chain_ok; lia|lia|]. intros [] _. rstep. rstep. lia.
Qed.
Lemma w_pkfs p g m s a : runs (wots_pk_from_sig_w p g m s a) (3 * rest_digits p m) (fun _ l => l = (3 * rest_digits p m)%N).
Proof.
  unfold wots_pk_from_sig_w. rstep. 
  match goal with H : chain_lengths p m = Ok ?l |- _ => rename H into Hl; rename l into ls end. unfold rest_digits. rewrite Hl.
  eapply runs_weak; [apply (runs_for_sum _ _ _ _ (fun j => 3 * (w1 p - dg ls j))%N)|rewrite sumN_scale; lia|intros; cbv beta in *; rewrite sumN_scale in *; lia].
  intros j [o a1] _ _. cbv zeta. rstep. match goal with H : rdc ls j = Ok ?d |- _ => apply rdc_inv in H; apply (nth_error_nth _ _ 0) in H; rename H into Hd; rename d into dj end.
  pose proof (digit_le p m ls j Hl) as Hle. unfold dg in *. rewrite Hd in *.
  rstep. eapply (runs_then _ _ (3 * N.of_nat (wots_w p - 1 - dj))%N); [apply w_chain_ok; lia|lia|]. intros [] _. rstep. lia.
Qed.

Lemma w_ltl p f : forall l h wp s a, runs (l_tree_loop_w p f l h wp s a) (4 * N.of_nat (l - 1)) (fun _ c => c = (4 * N.of_nat (l - 1))%N).
Proof.
  induction f as [|f IH]; intros l h wp s a; cbn [l_tree_loop_w]; (destruct (Nat.leb_spec l 1) as [Hl|Hl]; [rstep; lia|]); [rstep; discriminate|]. cbv zeta.
  pose proof (Nat.div_mod l 2 ltac:(lia)) as Hdm. pose proof (Nat.mod_upper_bound l 2 ltac:(lia)) as Hm.
  eapply (runs_then _ _ (4 * N.of_nat (l / 2))%N); [|lia|].
  - eapply runs_weak; [apply (runs_for _ _ _ _ 4)|lia|intros; cbv beta in *; lia]. intros j [o a1] _ _. cbv zeta. rstep. rthen 4%N w_thash_h. destruct z as []. rstep. rstep. lia.
  - intros [w2 a2] _. eapply (runs_bind _ _ 0%N (fun _ => _) _ (fun '(_, l') c => c = 0%N /\ l' = l / 2 + l mod 2)).
    + destruct (Nat.odd l) eqn:Eo.
      * rstep. rstep. rstep. split; [reflexivity|]. f_equal. symmetry. apply Nat.odd_spec in Eo as [q ->]. rewrite Nat.add_mod, Nat.mul_comm, Nat.mod_mul by lia. reflexivity.
      * rstep. split; [reflexivity|]. rewrite <- Nat.negb_even in Eo. apply Bool.negb_false_iff, Nat.even_spec in Eo as [q ->].
        rewrite (Nat.mul_comm 2 q), Nat.mod_mul by lia. lia.
    + lia.
    + intros [w3 l3] c _ _ [-> ->]. split; [|apply N.le_refl]. eapply runs_weak; [apply IH|lia|]. intros; cbv beta in *; lia.
Qed.
Definition lt_work p : N := (4 * N.of_nat (wots_len p - 1))%N.
Lemma w_lt p wp s a : runs (l_tree_w p wp s a) (lt_work p) (fun _ c => c = lt_work p).
Proof. unfold l_tree_w. cbv zeta. unfold lt_work. eapply runs_then; [apply w_ltl|lia|]. intros [] _. rstep. rstep. lia. Qed.
Definition leaf_work p : N := (pkgen_work p + lt_work p)%N.
Lemma w_leaf p sks s la oa : runs (gen_leaf_wots_w p sks s la oa) (leaf_work p) (fun _ l => l = leaf_work p).
Proof. unfold gen_leaf_wots_w, leaf_work. rthen (pkgen_work p) w_pkgen. destruct z. rthen (lt_work p) w_lt. destruct z. rstep. lia. Qed.
Lemma w_root p lf li ab ao s a : runs (compute_root_w p lf li ab ao s a) (4 * th p) (fun _ l => l = (4 * th p)%N).
Proof.
  unfold compute_root_w. cbv zeta. rstep. rstep. destruct (Nat.eqb_spec (tree_height p) 0) as [|Hth]; [rstep|].
  eapply (runs_then _ _ (4 * N.of_nat (tree_height p - 1))%N); [|lia|].
  - eapply runs_weak; [apply (runs_for _ _ _ _ 4)|lia|intros; cbv beta in *; lia]. intros j zs _ _. repeat (destruct zs as [zs ?]). cbv zeta. rthen 4%N w_thash_h. destruct z. rstep.
    eapply (runs_then _ _ 0%N); [repeat rstep; reflexivity|lia|]. intros ? _. rstep. lia.
  - intros zs _. repeat (destruct zs as [zs ?]). eapply runs_weak; [apply w_thash_h|lia|]. intros; cbv beta in *; lia.
Qed.

(** the stack of the tree hash: strictly increasing heights from the top, one for each bit *)
Fixpoint up (h : nat) (T : list nat) : Prop := match T with [] => True | x :: T => h < x /\ up x T end.
Fixpoint tot (T : list nat) : N := match T with [] => 0%N | x :: T => (2 ^ N.of_nat x + tot T)%N end.
Definition wk (T : list nat) : Prop := match T with [] => True | [_] => True | x :: y :: T => x <= y /\ up y T end.
Definition st (T : list nat) : Prop := match T with [] => True | x :: T => up x T end.
Lemma st_wk0 T : st T -> wk (0 :: T).
Proof. destruct T as [|x T]; cbn; [auto|]. split; [lia|assumption]. Qed.
Lemma tot_up T : forall h, up h T -> T <> [] -> (2 ^ N.of_nat (h + 1) <= tot T)%N.
Proof.
  intros h Hu Hn. destruct T as [|x T]; [congruence|]. destruct Hu as [Hx _]. cbn [tot].
  assert (2 ^ N.of_nat (h + 1) <= 2 ^ N.of_nat x)%N by (apply N.pow_le_mono_r; lia). lia.
Qed.
Lemma up_div T : forall h, up h T -> (tot T mod 2 ^ N.of_nat (h + 1) = 0)%N.
Proof.
  induction T as [|x T IH]; intros h Hu; [apply N.mod_0_l, N.pow_nonzero; lia|]. destruct Hu as [Hx Hu]. cbn [tot].
  specialize (IH x Hu). pose proof (N.pow_nonzero 2 (N.of_nat (h + 1)) ltac:(lia)) as Hnz. pose proof (N.pow_nonzero 2 (N.of_nat (x + 1)) ltac:(lia)) as Hnx.
  assert (Hq : forall y, h + 1 <= y -> (2 ^ N.of_nat y = 2 ^ N.of_nat (y - (h + 1)) * 2 ^ N.of_nat (h + 1))%N).
  { intros y Hy. rewrite <- N.pow_add_r. f_equal. lia. }
  apply N.mod_divide in IH; [|exact Hnx]. destruct IH as [q IH]. rewrite IH, (Hq x), (Hq (x + 1)) by lia.
  rewrite N.mul_assoc, <- N.mul_add_distr_r. now apply N.mod_mul.
Qed.
Lemma st_one T k : st T -> tot T = (2 ^ N.of_nat k)%N -> length T = 1.
Proof.
  intros Hs Ht. destruct T as [|x T]; [cbn in Ht; pose proof (N.pow_nonzero 2 (N.of_nat k)); lia|]. cbn [st] in Hs. cbn [tot] in Ht.
  destruct T as [|y T]; [reflexivity|]. exfalso. pose proof (tot_up _ _ Hs ltac:(discriminate)) as Hb. pose proof (up_div _ _ Hs) as Hd.
  set (TT := tot (y :: T)) in *. pose proof (N.pow_nonzero 2 (N.of_nat x) ltac:(lia)) as Hnz.
  assert (Hx1 : (2 ^ N.of_nat (x + 1) = 2 * 2 ^ N.of_nat x)%N) by (rewrite Nat.add_1_r, Nat2N.inj_succ, N.pow_succ_r'; reflexivity).
  assert (Hk : x < k). { destruct (Nat.le_gt_cases k x) as [Hkx|]; [|assumption]. assert (2 ^ N.of_nat k <= 2 ^ N.of_nat x)%N by (apply N.pow_le_mono_r; lia). lia. }
  assert (Hdk : (2 ^ N.of_nat k = 2 ^ N.of_nat (k - (x + 1)) * 2 ^ N.of_nat (x + 1))%N) by (rewrite <- N.pow_add_r; f_equal; lia).
  apply N.mod_divide in Hd; [|lia]. destruct Hd as [q Hd]. rewrite Hd, Hdk, Hx1 in Ht. clear - Ht Hnz. set (X := (2 ^ N.of_nat x)%N) in *. set (Y := (2 ^ N.of_nat (k - (x + 1)))%N) in *.
  assert (He : (1 + 2 * q = 2 * Y)%N) by (apply (N.mul_cancel_l _ _ X); [exact Hnz|lia]). lia.
Qed.

Definition stk (hs : list nat) (o : nat) (T : list nat) : Prop := repr hs T /\ length T = o.
Lemma stk_top hs o x T d : stk hs o (x :: T) -> rdc hs (o - 1) = Ok d -> d = x.
Proof. intros [Hr Hl] Hd. cbn [length] in Hl. subst o. rewrite Nat.sub_succ, Nat.sub_0_r in Hd. apply rdc_inv, (nth_error_nth _ _ 0) in Hd. rewrite (repr_top _ _ _ 0 Hr) in Hd. congruence. Qed.
Lemma wrc_inv {A} (l l' : list A) i x : wrc l i x = Ok l' -> i < length l /\ l' = upd l i x.
Proof. unfold wrc. destruct (Nat.ltb_spec i (length l)); [intros [= <-]; auto|discriminate]. Qed.
Lemma w_while p f : forall idx li s stck hs o ab ao na T, stk hs o T -> wk T ->
  runs (treehash_while_w p f idx li s stck hs o ab ao na) (4 * N.of_nat (o - 1))
    (fun '(_, hs', o', _, _) l => l = (4 * N.of_nat (o - o'))%N /\ o' <= o /\ exists T', stk hs' o' T' /\ st T' /\ tot T' = tot T).
Proof.
  induction f as [|f IH]; intros idx li s stck hs o ab ao na T Hs Hw; cbn [treehash_while_w];
    (destruct (Nat.ltb_spec o 2) as [Ho|Ho];
     [rstep; split; [rewrite Nat.sub_diag; reflexivity|]; split; [lia|]; exists T; split; [exact Hs|]; split; [|reflexivity]; destruct Hs as [_ Hl]; destruct T as [|x [|y T]]; cbn in *; lia || exact I|]);
    (destruct T as [|x [|y T]]; [destruct Hs; cbn in *; lia|destruct Hs; cbn in *; lia|]); rstep; rstep;
    match goal with A : rdc hs (o - 1) = Ok ?a, B : rdc hs (o - 2) = Ok ?b |- _ => rename A into H1; rename B into H2; rename a into h1; rename b into h2 end;
    pose proof (stk_top _ _ _ _ _ Hs H1) as ->;
    (assert (Hs1 : stk hs (o - 1) (y :: T)) by (destruct Hs as [A1 A2]; split; [now apply repr_pop in A1|cbn in *; lia]));
    (assert (H2' : rdc hs (o - 1 - 1) = Ok h2) by (rewrite <- H2; f_equal; lia));
    pose proof (stk_top _ _ _ _ _ Hs1 H2') as ->; cbn [wk] in Hw; destruct Hw as [Hxy Hu];
    (destruct (Nat.eqb_spec x y) as [->|Hne]; cbn [negb];
     [|rstep; split; [rewrite Nat.sub_diag; reflexivity|]; split; [lia|]; exists (x :: y :: T); split; [exact Hs|]; split; [|reflexivity]; cbn; split; [lia|exact Hu]]).
  - rstep. discriminate.
  - cbv zeta. rstep. eapply (runs_then _ _ 4%N); [apply w_thash_h|lia|]. intros [o1 na1] _. clear H2'. rstep. rstep.
    match goal with A : rdc hs (o - 1 - 1) = Ok ?a |- _ => pose proof (stk_top _ _ _ _ _ Hs1 A) as -> end. rstep.
    match goal with B : wrc hs (o - 1 - 1) _ = Ok ?hs2 |- _ => apply wrc_inv in B as [Hlt ->] end.
    eapply (runs_then _ _ 0%N); [repeat rstep; reflexivity|lia|]. intros ab2 _.
    assert (Hs2 : stk (upd hs (o - 1 - 1) (y + 1)) (o - 1) (y + 1 :: T)).
    { destruct Hs1 as [A1 A2]. split; [|exact A2]. replace (o - 1 - 1) with (length T) by (cbn in A2; lia). now apply (repr_set _ _ y). }
    eapply runs_weak; [apply (IH _ _ _ _ _ _ _ _ _ (y + 1 :: T) Hs2)|lia|].
    + destruct T as [|z T]; cbn in *; [exact I|]. split; [lia|tauto].
    + intros zz l _. repeat (destruct zz as [zz ?]). intros (-> & Hle & T' & B1 & B2 & B3). split; [lia|]. split; [lia|]. exists T'. split; [exact B1|]. split; [exact B2|].
      rewrite B3. cbn [tot]. rewrite Nat.add_1_r, Nat2N.inj_succ, N.pow_succ_r'. lia.
Qed.
End WithEnv.
