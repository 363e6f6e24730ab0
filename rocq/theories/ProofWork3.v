(** The number of hash calls of building a tree, of key generation, and bounds for signing and verification. *)
From Coq Require Import ZArith.
From Verif Require Import Base Lib ModelUtils ModelParams ModelHash ModelWots ModelCommons ModelCore ModelXmss ModelCost ProofCost ProofCost2 ProofTree ModelWork ProofWork ProofWork2.

(** loops with an invariant that knows the count *)
Lemma runs_for_inv {S} (I : nat -> S -> N -> Prop) K k : forall i (body : nat -> S -> cost S) s c0,
  I i s c0 -> (c0 <= K)%N -> (forall j s c, i <= j -> j < i + k -> (c <= K)%N -> I j s c -> runs (body j s) (K - c) (fun s' l => I (Datatypes.S j) s' (c + l)%N)) ->
  runs (cforN k i body s) (K - c0) (fun s' l => I (i + k) s' (c0 + l)%N).
Proof.
  induction k as [|k IH]; intros i body s c0 Hi Hk Hb; cbn [cforN].
  - rstep. now rewrite Nat.add_0_r, N.add_0_r.
  - eapply (runs_bind _ _ _ (fun l => K - (c0 + l))%N); [apply (Hb i s c0); [lia|lia|exact Hk|exact Hi]|lia|].
    intros x l _ Hl Hx. cbv beta in Hx. split; [|lia].
    eapply runs_weak; [apply (IH (Datatypes.S i) body x (c0 + l)%N Hx); [lia|]|lia|].
    + intros j s' c A1 A2 A3 A4. apply Hb; [lia|lia|exact A3|exact A4].
    + intros y l' _ Hy. cbv beta in *. rewrite <- plus_n_Sm. replace (c0 + (l + l'))%N with (c0 + l + l')%N by lia. exact Hy.
Qed.

Section WithEnv.
Context {E : Env}.
Notation len p := (N.of_nat (wots_len p)).
Notation w1 p := (N.of_nat (wots_w p - 1)).
Notation th p := (N.of_nat (tree_height p)).
Notation B p := (2 ^ N.of_nat (tree_height p))%N.

Definition tree_work p : N := (B p * leaf_work p + 4 * (B p - 1))%N.
Lemma w_treehash p ab ao sks ps li sub : runs (treehash_w p ab ao sks ps li sub) (tree_work p) (fun _ l => l = tree_work p).
Proof.
  unfold treehash_w. cbv zeta. rstep. match goal with H : shl1_int _ = Ok _ |- _ => apply shl_int_val in H; subst end.
  assert (HB : (1 <= B p)%N) by (pose proof (N.pow_nonzero 2 (th p)); lia).
  eapply (runs_bind _ _ (tree_work p) (fun _ => 0%N) _ (fun _ l => l = tree_work p)); [|lia|].
  - eapply runs_weak.
    + apply (runs_for_inv (fun j '(_, hs, o, _, _, _, _) c => o <= j /\ (0 < j -> 0 < o) /\ c = (N.of_nat j * leaf_work p + 4 * N.of_nat (j - o))%N /\
         exists T, stk hs o T /\ st T /\ tot T = N.of_nat j) (tree_work p) (N.to_nat (B p)) 0 _ _ 0%N); [|apply N.le_0_l|].
      * split; [lia|]. split; [lia|]. split; [reflexivity|]. exists []. repeat split.
      * intros j [[[[[[stck hs] o] ab'] oa] la] na] c _ Hj Hc Hi. cbv beta iota in Hi |- *. destruct Hi as (Ho & _ & Ec & T & Ht & Hst & Htot).
        assert (Hj1 : (N.of_nat j + 1 <= B p)%N) by lia.
        assert (Hroom : (c + leaf_work p + 4 * N.of_nat o <= tree_work p)%N).
        { rewrite Ec. unfold tree_work. assert ((N.of_nat j + 1) * leaf_work p <= B p * leaf_work p)%N by (apply N.mul_le_mono_r; exact Hj1). lia. }
        rthen (leaf_work p) w_leaf. destruct z as [[leaf lta] ota]. rstep. rstep.
        match goal with H : wrc hs _ _ = Ok _ |- _ => apply wrc_inv in H as [Hlt ->] end.
        eapply (runs_then _ _ 0%N); [repeat rstep; reflexivity|lia|]. intros ab2 _.
        replace (o + 1 - 1) with o in * by lia. destruct Ht as [Ht1 Ht2].
        eapply (runs_bind _ _ (4 * N.of_nat (o + 1 - 1)) (fun _ => 0%N)).
        -- apply (w_while p _ _ _ _ _ _ _ _ _ _ (0 :: T)); [|now apply st_wk0]. split; [|cbn; lia].
           rewrite <- Ht2. apply repr_push; [exact Ht1|lia].
        -- lia.
        -- intros zs2 l2 _ Hl2 Hq. repeat (destruct zs2 as [zs2 ?]). destruct Hq as (-> & Hle & T' & [G1 G2] & G3 & G4). split; [|lia]. rstep.
           assert (Htt : tot T' = N.of_nat (Datatypes.S j)) by (rewrite G4; cbn [tot]; rewrite Htot; change (2 ^ N.of_nat 0)%N with 1%N; lia).
           assert (0 < length T') by (destruct T'; [cbn in Htt; lia|cbn; lia]).
           split; [lia|]. split; [lia|]. split; [rewrite Ec; lia|]. exists T'. repeat split; assumption.
    + lia.
    + intros zs c _ Hi. repeat (destruct zs as [zs ?]). destruct Hi as (Ho & Ho1 & Ec & T & [Ht1 Ht2] & Hst & Htot). cbn [Nat.add] in *.
      rewrite N.add_0_l in Ec. rewrite N2Nat.id in Htot. apply st_one in Htot; [|exact Hst]. rewrite Ec. unfold tree_work. rewrite N2Nat.id. lia.
  - intros zs l _ _ ->. repeat (destruct zs as [zs ?]). split; [|lia]. rstep. rstep. lia.
Qed.
Lemma w_keypair p pk sk r : runs (ref_xmssmt_core_keypair_w p pk sk r) (tree_work p) (fun _ l => l = tree_work p).
Proof.
  unfold ref_xmssmt_core_keypair_w. eapply (runs_then _ _ (tree_work p)); [|lia|].
  - unfold xmssmt_core_seed_keypair_w. cbv zeta. do 9 rstep.
    eapply (runs_then _ _ (tree_work p)); [apply w_treehash|lia|]. intros [] _. repeat rstep; cbv beta; lia.
  - intros [[]] _. repeat rstep; cbv beta; lia.
Qed.

(** ** Any input *)
Definition layer_sign p root : N := (len p + 3 * sign_digits p root + tree_work p)%N.
Definition layer_open p root : N := (3 * rest_digits p root + lt_work p + 4 * th p)%N.
Definition sign_max p : N := (2 + N.of_nat (p_d p) * (pkgen_work p + tree_work p))%N.
Definition open_max p : N := (1 + N.of_nat (p_d p) * (len p * (3 * w1 p) + lt_work p + 4 * th p))%N.
Lemma runs_le {A} (c : cost A) K : runs c K (fun _ _ => True) -> (count c <= K)%N.
Proof. now intros [H _]. Qed.
Lemma runs_for_le {S} k : forall i (body : nat -> S -> cost S) s K,
  (forall j s, runs (body j s) K (fun _ _ => True)) -> runs (cforN k i body s) (N.of_nat k * K) (fun _ _ => True).
Proof.
  induction k as [|k IH]; intros i body s K Hb; cbn [cforN]; [rstep; exact I|].
  apply (runs_bind _ _ K (fun _ => N.of_nat k * K)%N _ (fun _ _ => True)); [apply Hb|lia|].
  intros x l _ Hl _. split; [|lia]. eapply runs_weak; [now apply IH|lia|auto].
Qed.
Ltac rlast := match goal with |- runs (cbind (cforN _ _ _ _) _) _ _ => fail 1 | |- runs (cbind (hash_message_w _ _ _ _ _ _ _) _) _ _ => fail 1 | |- runs (cbind (prf_w _ _ _) _) _ _ => fail 1 | _ => rstep end.
Lemma w_open_max p m sm pk : runs (xmssmt_core_sign_open_w p m sm pk) (open_max p) (fun _ _ => True).
Proof.
  unfold xmssmt_core_sign_open_w, open_max. cbv zeta. repeat rlast. rthen 1%N w_hmsg. destruct z. rstep.
  eapply (runs_bind _ _ _ (fun _ => 0%N) _ (fun _ _ => True)); [apply (runs_for_le _ _ _ _ (len p * (3 * w1 p) + lt_work p + 4 * th p)%N)|lia|].
  - intros j zs. repeat (destruct zs as [zs ?]). cbv zeta. rstep. pose proof (rest_digits_le p zs) as Hr.
    eapply (runs_then _ _ (3 * rest_digits p zs)%N); [apply w_pkfs|lia|]. intros [] _. rthen (lt_work p) w_lt. destruct z.
    eapply (runs_then _ _ (4 * th p)%N); [apply w_root|lia|]. intros [] _. rstep. exact I.
  - intros zs zl _ Hl _. repeat (destruct zs as [zs ?]). split; [|lia]. repeat rstep; exact I.
Qed.
Lemma w_sign_max p sk sm smlen m : runs (ref_xmssmt_core_sign_w p sk sm smlen m) (sign_max p) (fun o l => so_rc o = (-2)%Z -> l = 0%N).
Proof.
  assert (Hb : forall idx sk sm smlen mlen, runs (ref_sign_body_w p idx sk sm smlen mlen) (sign_max p) (fun o l => so_rc o = (-2)%Z -> l = 0%N)).
  { clear. intros idx sk sm smlen mlen. unfold ref_sign_body_w, sign_max. cbv zeta. repeat rlast. rthen 1%N w_prf. repeat rlast. rthen 1%N w_hmsg. destruct z0. rstep.
    eapply (runs_bind _ _ _ (fun _ => 0%N) _ (fun _ _ => True)); [apply (runs_for_le _ _ _ _ (pkgen_work p + tree_work p)%N)|lia|].
    - intros j [[[[ix sm1] of] b1] oa]. cbv zeta. pose proof (sign_digits_le p b1) as Hr. unfold pkgen_work.
      eapply (runs_then _ _ (len p + 3 * sign_digits p b1)%N); [apply w_wsign|lia|]. intros [] _. rstep. eapply (runs_then _ _ (tree_work p)); [apply w_treehash|lia|]. intros [] _.
      rstep. exact I.
    - intros zs zl _ Hl _. repeat (destruct zs as [zs ?]). split; [|lia]. rstep. discriminate. }
  unfold ref_xmssmt_core_sign_w. cbv zeta. repeat rstep; try reflexivity; apply Hb.
Qed.
End WithEnv.
