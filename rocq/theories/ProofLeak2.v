(** Two runs on different data: the traces. *)
From Verif Require Import Base Lib ModelUtils ModelParams ModelHash ModelWots ModelCommons ModelCore ModelXmss SpecRfc SpecParams SpecApi ProofUtils ProofHash ModelLeak ProofLeak.

(** the data of the two runs: the same length, a given length, anything *)
Definition el {A} (x y : list A) : Prop := length x = length y.
Definition ln {A} (k : nat) (x y : list A) : Prop := length x = k /\ length y = k.
Definition anyr {A} (x y : A) : Prop := True.
Definition pr {A B} (R : A -> A -> Prop) (S : B -> B -> Prop) (x y : A * B) : Prop := R (fst x) (fst y) /\ S (snd x) (snd y).

Lemma ln_el {A} k (x y : list A) : ln k x y -> el x y.
Proof. intros [H1 H2]. unfold el. lia. Qed.
Lemma pr_i {A B} (R : A -> A -> Prop) (S : B -> B -> Prop) x y x' y' : R x x' -> S y y' -> pr R S (x, y) (x', y').
Proof. now split. Qed.
Lemma any_i {A} (x y : A) : anyr x y.
Proof. exact I. Qed.
Lemma el_refl {A} (x : list A) : el x x.
Proof. reflexivity. Qed.
Lemma ln_refl {A} k (x y : list A) : length x = k -> length y = k -> ln k x y.
Proof. now split. Qed.
Lemma el_app {A} (x y x' y' : list A) : el x x' -> el y y' -> el (x ++ y) (x' ++ y').
Proof. unfold el. rewrite !app_length. lia. Qed.
Lemma el_cons {A} (x y : A) l l' : el l l' -> el (x :: l) (y :: l').
Proof. unfold el. cbn. lia. Qed.
Lemma el_xor x y x' y' : el x x' -> el y y' -> el (xor_bytes x y) (xor_bytes x' y').
Proof. unfold el, xor_bytes. rewrite !map_length, !combine_length. lia. Qed.
Lemma el_ull k x y : el (ull_to_bytes k x) (ull_to_bytes k y).
Proof. unfold el. now rewrite !ull_to_bytes_spec, !toByte_length. Qed.
Lemma el_addr a b : el (addr_to_bytes a) (addr_to_bytes b).
Proof. unfold el. now rewrite !addr_to_bytes_length. Qed.
Lemma el_skipn {A} k (x y : list A) : el x y -> el (skipn k x) (skipn k y).
Proof. unfold el. rewrite !skipn_length. lia. Qed.
Lemma el_firstn {A} k (x y : list A) : el x y -> el (firstn k x) (firstn k y).
Proof. unfold el. rewrite !firstn_length. lia. Qed.
Ltac elt := match goal with
  | H : el ?x ?y |- el ?x ?y => exact H
  | |- el ?x ?x => reflexivity
  | H : ln _ ?x ?y |- el ?x ?y => exact (ln_el _ _ _ H)
  | H : ln ?k ?x ?y |- ln ?k ?x ?y => exact H
  | |- el (_ ++ _) (_ ++ _) => apply el_app; elt
  | |- el (_ :: _) (_ :: _) => apply el_cons; elt
  | |- el (xor_bytes _ _) (xor_bytes _ _) => apply el_xor; elt
  | |- el (ull_to_bytes ?k _) (ull_to_bytes ?k _) => apply el_ull
  | |- el (addr_to_bytes _) (addr_to_bytes _) => apply el_addr
  | |- el (skipn _ _) (skipn _ _) => apply el_skipn; elt
  | |- el (firstn _ _) (firstn _ _) => apply el_firstn; elt
  | |- anyr _ _ => exact I
  | |- ?x = ?x => reflexivity
  | |- pr _ _ (_, _) (_, _) => apply pr_i; elt
  end.

Section Rel.
Context {E : Env} (f : event -> event).

(** The same trace as seen through [f], the same kind of outcome, related results. *)
Definition lrel {A} (R : A -> A -> Prop) (c1 c2 : leak A) : Prop :=
  map f (trace c1) = map f (trace c2) /\
  match outcome c1, outcome c2 with
  | Ok x, Ok y => R x y
  | UB, UB => True
  | NoFuel, NoFuel => True
  | _, _ => False
  end.

Lemma r_weaken {A} (R R' : A -> A -> Prop) c1 c2 : lrel R c1 c2 -> (forall x y, R x y -> R' x y) -> lrel R' c1 c2.
Proof. intros [H1 H2] HR. split; [exact H1|]. destruct (outcome c1), (outcome c2); auto. Qed.
Lemma r_bind {A B} (R : A -> A -> Prop) (Q : B -> B -> Prop) c1 c2 k1 k2 : lrel R c1 c2 -> (forall x y, R x y -> lrel Q (k1 x) (k2 y)) ->
  lrel Q (lbind c1 k1) (lbind c2 k2).
Proof.
  intros [H1 H2] Hk. unfold lbind, lrel. destruct (outcome c1) as [x| |], (outcome c2) as [y| |]; try contradiction; cbn [trace outcome]; auto.
  destruct (Hk x y H2) as [K1 K2]. rewrite !map_app. split; [congruence|exact K2].
Qed.
Lemma r_ok {A} (R : A -> A -> Prop) x y : R x y -> lrel R (silent (Ok x)) (silent (Ok y)).
Proof. now split. Qed.
Lemma r_same {A} (c : res A) : lrel eq (silent c) (silent c).
Proof. split; [reflexivity|]. cbn. now destruct c. Qed.
Lemma r_ub {A} (R : A -> A -> Prop) : lrel R (silent UB) (silent UB).
Proof. now split. Qed.
Lemma r_nofuel {A} (R : A -> A -> Prop) : lrel R (silent NoFuel) (silent NoFuel).
Proof. now split. Qed.
Lemma r_rd x y o l : el x y -> lrel (ln l) (rd_l x o l) (rd_l y o l).
Proof.
  intros He. split; [reflexivity|]. cbn [rd_l outcome]. unfold rd. rewrite He. destruct (Nat.leb_spec (o + l) (length y)) as [Hl|Hl]; [|exact I].
  unfold el in He. split; rewrite firstn_length, skipn_length; lia.
Qed.
Lemma r_wr x y o d d' : el x y -> el d d' -> lrel el (wr_l x o d) (wr_l y o d').
Proof.
  intros He Hd. split; [cbn; now rewrite Hd|]. cbn [wr_l outcome]. unfold wr. rewrite He, Hd. destruct (_ <=? _); [|exact I].
  unfold el in *. rewrite !app_length, !firstn_length, !skipn_length. lia.
Qed.
Lemma r_rdc {A} (x : list A) i : lrel eq (rdc_l x i) (rdc_l x i).
Proof. split; [reflexivity|]. cbn [rdc_l outcome]. now destruct (rdc x i). Qed.
Lemma r_rdc_any {A} (x y : list A) i : el x y -> lrel anyr (rdc_l x i) (rdc_l y i).
Proof.
  intros He. split; [reflexivity|]. cbn [rdc_l outcome]. unfold rdc. destruct (nth_error x i) eqn:E1, (nth_error y i) eqn:E2; try exact I.
  - apply nth_error_None in E2. assert (nth_error x i <> None) as Hx by congruence. apply nth_error_Some in Hx. unfold el in He. lia.
  - apply nth_error_None in E1. assert (nth_error y i <> None) as Hx by congruence. apply nth_error_Some in Hx. unfold el in He. lia.
Qed.
Lemma r_wrc {A} (x : list A) i v : lrel eq (wrc_l x i v) (wrc_l x i v).
Proof. split; [reflexivity|]. cbn [wrc_l outcome]. now destruct (wrc x i v). Qed.
Lemma r_if {A} (R : A -> A -> Prop) b c1 c2 d1 d2 : (b = true -> lrel R c1 d1) -> (b = false -> lrel R c2 d2) -> lrel R (lif b c1 c2) (lif b d1 d2).
Proof. intros H1 H2. unfold lif, lrel. cbn [trace outcome map]. destruct b; [destruct (H1 eq_refl)|destruct (H2 eq_refl)]; split; congruence || assumption. Qed.
Lemma r_for {S} (R : S -> S -> Prop) b1 b2 : (forall i x y, R x y -> lrel R (b1 i x) (b2 i y)) -> forall k i x y, R x y -> lrel R (lforN k i b1 x) (lforN k i b2 y).
Proof.
  intros Hb. induction k as [|k IH]; intros i x y Hxy; cbn [lforN]; [now split|].
  apply (r_bind R); [|intros; now apply IH]. destruct (Hb i x y Hxy) as [B1 B2]. split; [cbn [trace map]; congruence|exact B2].
Qed.

Variables (p : xmss_params) (Hf : bytes -> bytes).
Hypothesis HH : hash_total p Hf.

Lemma r_hash x y : el x y -> lrel (ln (p_n p)) (core_hash_l p x) (core_hash_l p y).
Proof.
  intros He. destruct (HH x) as (X1 & X2 & _), (HH y) as (Y1 & Y2 & _). split; [cbn; now rewrite He|].
  cbn [core_hash_l outcome]. rewrite X1, Y1. now split.
Qed.

Ltac rl1 := match goal with
  | |- lrel _ (lbind (silent (shl1_int _)) _) _ => apply (r_bind eq); [apply r_same|intros ? ? <-]
  | |- lrel _ (lbind (rd_l _ _ _) _) _ => eapply r_bind; [apply r_rd; elt|intros ? ? ?]
  | |- lrel _ (lbind (wr_l _ _ _) _) _ => eapply r_bind; [apply r_wr; elt|intros ? ? ?]
  | |- lrel _ (lbind (core_hash_l _ _) _) _ => eapply r_bind; [apply r_hash; elt|intros ? ? ?]
  | |- lrel _ (rd_l _ _ _) _ => apply r_rd; elt
  | |- lrel _ (wr_l _ _ _) _ => apply r_wr; elt
  | |- lrel _ (core_hash_l _ _) _ => apply r_hash; elt
  | |- lrel _ (silent (Ok _)) _ => apply r_ok; elt
  | |- lrel _ (silent UB) _ => apply r_ub
  | |- lrel _ (silent NoFuel) _ => apply r_nofuel
  end.
Ltac rl := cbv zeta; repeat (rl1; cbv beta zeta).
Ltac call L := eapply r_bind; [apply L; elt|intros ? ? ?].
Ltac call2 L := eapply r_bind; [apply L; elt|intros [? ?] [? ?] [? ?]; cbn [fst snd] in *].

Lemma r_prf i i' k k' : el i i' -> el k k' -> lrel (ln (p_n p)) (prf_l p i k) (prf_l p i' k').
Proof. intros Hi Hk. unfold prf_l. rl. Qed.
Lemma r_prf_keygen i i' k k' : el i i' -> el k k' -> lrel (ln (p_n p)) (prf_keygen_l p i k) (prf_keygen_l p i' k').
Proof. intros Hi Hk. unfold prf_keygen_l. rl. Qed.
Lemma r_thash_h i i' s s' a a' : el i i' -> el s s' -> lrel (pr (ln (p_n p)) anyr) (thash_h_l p i s a) (thash_h_l p i' s' a').
Proof. intros Hi Hs. unfold thash_h_l. cbv zeta. call r_prf. call r_prf. call r_prf. rl. Qed.
Lemma r_thash_f i i' s s' a a' : el i i' -> el s s' -> lrel (pr (ln (p_n p)) anyr) (thash_f_l p i s a) (thash_f_l p i' s' a').
Proof. intros Hi Hs. unfold thash_f_l. cbv zeta. call r_prf. call r_prf. rl. Qed.
Lemma r_hash_message R R' rt rt' idx b b' o l : el rt rt' -> el b b' -> (forall x y, el x y -> lrel el (R x) (R' y)) ->
  lrel (pr (ln (p_n p)) el) (hash_message_l p R rt idx b o l) (hash_message_l p R' rt' idx b' o l).
Proof. intros H1 H2 HR. unfold hash_message_l. rl. eapply r_bind; [apply HR; elt|intros ? ? ?]. rl. Qed.
Lemma r_expand i i' s s' a a' : el i i' -> el s s' -> lrel (pr el anyr) (expand_seed_l p i s a) (expand_seed_l p i' s' a').
Proof.
  intros Hi Hs. unfold expand_seed_l. rl. apply r_for; [|elt]. intros j [x1 x2] [y1 y2] [Hx _]; cbn [fst snd] in *. cbv zeta.
  call r_prf_keygen. rl.
Qed.
Lemma r_chain_loop k : forall i o o' s s' a a', el o o' -> el s s' -> lrel (pr el anyr) (gen_chain_loop_l p k i o s a) (gen_chain_loop_l p k i o' s' a').
Proof.
  induction k as [|k IH]; intros i o o' s s' a a' Ho Hs; cbn [gen_chain_loop_l]; [rl|]. apply r_if; intros _; cbv zeta; [|rl].
  call2 r_thash_f. apply IH; elt.
Qed.
Lemma r_chain x x' i k s s' a a' : el x x' -> el s s' -> lrel (pr el anyr) (gen_chain_l p x i k s a) (gen_chain_l p x' i k s' a').
Proof. intros Hx Hs. unfold gen_chain_l. rl. apply r_chain_loop; elt. Qed.
Lemma r_pkgen i i' s s' a a' : el i i' -> el s s' -> lrel (pr el anyr) (wots_pkgen_l p i s a) (wots_pkgen_l p i' s' a').
Proof.
  intros Hi Hs. unfold wots_pkgen_l. call2 r_expand. apply r_for; [|elt]. intros j [x1 x2] [y1 y2] [Hx _]; cbn [fst snd] in *. rl.
  call2 r_chain. rl.
Qed.
Lemma r_ltl g : forall l h w w' s s' a a', el w w' -> el s s' -> lrel (pr el anyr) (l_tree_loop_l p g l h w s a) (l_tree_loop_l p g l h w' s' a').
Proof.
  induction g as [|g IH]; intros l h w w' s s' a a' Hw Hs; cbn [l_tree_loop_l]; (apply r_if; intros _; [rl|]); [rl|]. cbv zeta.
  apply (r_bind (pr el anyr)).
  - apply r_for; [|elt]. intros j [x1 x2] [y1 y2] [Hx _]; cbn [fst snd] in *. rl. call2 r_thash_h. rl.
  - intros [x1 x2] [y1 y2] [Hx _]; cbn [fst snd] in *. apply (r_bind (pr el eq)).
    + apply r_if; intros _; rl.
    + intros [z1 z2] [t1 t2] [Hz Hz2]; cbn [fst snd] in *. subst t2. apply IH; elt.
Qed.
Lemma r_lt w w' s s' a a' : el w w' -> el s s' -> lrel (pr (ln (p_n p)) anyr) (l_tree_l p w s a) (l_tree_l p w' s' a').
Proof. intros Hw Hs. unfold l_tree_l. cbv zeta. call2 r_ltl. rl. Qed.
Lemma r_leaf i i' s s' la la' oa oa' : el i i' -> el s s' -> lrel (pr (pr (ln (p_n p)) anyr) anyr) (gen_leaf_wots_l p i s la oa) (gen_leaf_wots_l p i' s' la' oa').
Proof. intros Hi Hs. unfold gen_leaf_wots_l. call2 r_pkgen. call2 r_lt. rl. Qed.
Lemma r_while g : forall idx li s s' st st' hs o ab ab' ao na na', el s s' -> el st st' -> el ab ab' ->
  lrel (pr (pr (pr (pr el eq) eq) el) anyr) (treehash_while_l p g idx li s st hs o ab ao na) (treehash_while_l p g idx li s' st' hs o ab' ao na').
Proof.
  induction g as [|g IH]; intros idx li s s' st st' hs o ab ab' ao na na' Hs Hst Hab; cbn [treehash_while_l]; cbv zeta;
    (apply r_if; intros _; [rl|]); (eapply r_bind; [apply r_rdc|intros h1 ? <-]); (eapply r_bind; [apply r_rdc|intros h2 ? <-]); (apply r_if; intros _; [rl|]); [rl|].
  rl. call2 r_thash_h. rl. eapply r_bind; [apply r_rdc|intros hh ? <-]. eapply r_bind; [apply r_wrc|intros hs' ? <-].
  apply (r_bind el); [apply r_if; intros _; rl|]. intros ab1 ab1' Hab1. apply IH; elt.
Qed.
Lemma r_treehash ab ab' ao i i' s s' li sub sub' : el ab ab' -> el i i' -> el s s' ->
  lrel (pr (ln (p_n p)) el) (treehash_l p ab ao i s li sub) (treehash_l p ab' ao i' s' li sub').
Proof.
  intros Hab Hi Hs. unfold treehash_l. cbv zeta. apply (r_bind eq); [apply r_same|intros th ? <-].
  apply (r_bind (pr (pr (pr (pr (pr (pr el eq) eq) el) anyr) anyr) anyr)).
  - apply r_for; [|elt]. intros j [[[[[[x1 x2] x3] x4] x5] x6] x7] [[[[[[y1 y2] y3] y4] y5] y6] y7] [[[[[[A1 A2] A3] A4] _] _] _]; cbn [fst snd] in *. subst y2 y3.
    eapply r_bind; [apply r_leaf; elt|intros [[lf ?] ?] [[lf' ?] ?] [[Hl _] _]; cbn [fst snd] in *]. rl.
    eapply r_bind; [apply r_wrc|intros hs' ? <-]. apply (r_bind el); [apply r_if; intros _; rl|]. intros ab1 ab1' Hab1.
    eapply r_bind; [apply r_while; elt|]. intros [[[[z1 z2] z3] z4] z5] [[[[t1 t2] t3] t4] t5] [[[[B1 B2] B3] B4] _]; cbn [fst snd] in *. subst t2 t3. rl.
  - intros [[[[[[x1 x2] x3] x4] x5] x6] x7] [[[[[[y1 y2] y3] y4] y5] y6] y7] [[[[[[A1 A2] A3] A4] _] _] _]; cbn [fst snd] in *. rl.
Qed.
Lemma r_seed_keypair pk pk' sk sk' sd sd' : el pk pk' -> el sk sk' -> el sd sd' ->
  lrel (pr (pr eq el) el) (xmssmt_core_seed_keypair_l p pk sk sd) (xmssmt_core_seed_keypair_l p pk' sk' sd').
Proof. intros H1 H2 H3. unfold xmssmt_core_seed_keypair_l. rl. call2 r_treehash. rl. Qed.
Lemma r_ref_keypair pk pk' sk sk' r r' : el pk pk' -> el sk sk' ->
  lrel (pr (pr eq el) el) (ref_xmssmt_core_keypair_l p pk sk r) (ref_xmssmt_core_keypair_l p pk' sk' r').
Proof.
  intros H1 H2. unfold ref_xmssmt_core_keypair_l. cbv zeta. eapply r_bind; [apply r_seed_keypair; try elt; unfold el, rand_take; now rewrite !map_length|].
  intros [[? ?] ?] [[? ?] ?] [[? ?] ?]; cbn [fst snd] in *. rl.
Qed.

(** base-w digits: their number and how they are computed do not depend on the data *)
Lemma r_basew k : forall i i' ix t t' b, el i i' -> lrel el (base_w_loop_l p k i ix t b) (base_w_loop_l p k i' ix t' b).
Proof.
  induction k as [|k IH]; intros i i' ix t t' b Hi; cbn [base_w_loop_l]; [rl|].
  apply (r_bind (pr (pr eq anyr) eq)).
  - apply r_if; intros _; [|rl]. eapply r_bind; [apply r_rdc_any; elt|intros ? ? ?]. rl.
  - intros [[x1 x2] x3] [[y1 y2] y3] [[A1 _] A3]; cbn [fst snd] in *. subst y1 y3. apply r_if; intros _; cbv zeta; [rl|].
    eapply r_bind; [apply IH; elt|intros ? ? ?]. rl.
Qed.
Lemma r_csum l l' : lrel el (wots_checksum_l p l) (wots_checksum_l p l').
Proof. unfold wots_checksum_l. apply (r_bind anyr); [now split|]. intros x y _. cbv zeta. apply r_basew. elt. Qed.
Lemma r_lengths m m' : el m m' -> lrel el (chain_lengths_l p m) (chain_lengths_l p m').
Proof. intros Hm. unfold chain_lengths_l. eapply r_bind; [apply r_basew; elt|intros ? ? ?]. eapply r_bind; [apply r_csum|intros ? ? ?]. rl. Qed.

(** any two chains, seen as one event *)
Hypothesis Hc : forall t t', f (Chain t) = f (Chain t').
Lemma chain_out k : forall i o s a, length o = p_n p -> length s = p_n p -> exists o' a', gen_chain_loop p k i o s a = Ok (o', a') /\ length o' = p_n p.
Proof.
  induction k as [|k IH]; intros i o s a Ho Hs; cbn [gen_chain_loop]; [eauto|]. destruct (i <? wots_w p); [|eauto]. cbv zeta.
  unfold thash_f. cbv zeta. unfold prf at 1. rewrite (rd_ok s) by lia. rewrite bind_ok, rd_ok by (rewrite addr_to_bytes_length; lia). rewrite bind_ok.
  match goal with |- context [core_hash p ?x] => destruct (HH x) as (-> & _ & _) end. rewrite bind_ok.
  unfold prf at 1. rewrite (rd_ok s) by lia. rewrite bind_ok, rd_ok by (rewrite addr_to_bytes_length; lia). rewrite bind_ok.
  match goal with |- context [core_hash p ?x] => destruct (HH x) as (-> & _ & _) end. rewrite bind_ok. rewrite (rd_ok o) by lia. rewrite bind_ok.
  match goal with |- context [core_hash p ?x] => destruct (HH x) as (-> & Hl & _) end. rewrite !bind_ok. apply IH; assumption.
Qed.
Lemma r_sign_chain x x' k k' s s' a a' : ln (p_n p) x x' -> ln (p_n p) s s' ->
  lrel (pr el anyr) (sign_chain (gen_chain_l p x 0 k s a)) (sign_chain (gen_chain_l p x' 0 k' s' a')).
Proof.
  intros [X1 X2] [S1 S2]. split; [cbn [sign_chain trace map]; f_equal; apply Hc|]. cbn [sign_chain outcome]. rewrite !lw_chain. unfold gen_chain.
  rewrite !rd_ok by lia. rewrite !bind_ok.
  destruct (chain_out k 0 (firstn (p_n p) (skipn 0 x)) s a) as (o & b & -> & Ho); [rewrite firstn_length, skipn_length; lia|assumption|].
  destruct (chain_out k' 0 (firstn (p_n p) (skipn 0 x')) s' a') as (o' & b' & -> & Ho'); [rewrite firstn_length, skipn_length; lia|assumption|].
  split; [unfold el; cbn; lia|exact I].
Qed.
Lemma r_wsign m m' i i' s s' a a' : el m m' -> el i i' -> ln (p_n p) s s' -> lrel (pr el anyr) (wots_sign_l p m i s a) (wots_sign_l p m' i' s' a').
Proof.
  intros Hm Hi Hs. unfold wots_sign_l. call r_lengths. call2 r_expand. apply r_for; [|elt]. intros j [x1 x2] [y1 y2] [Hx _]; cbn [fst snd] in *. cbv zeta.
  eapply r_bind; [apply r_rdc_any; elt|intros ? ? _]. rl. call2 r_sign_chain. rl.
Qed.

(** ** Signing *)
Definition so_rel (x y : sign_out) : Prop := so_rc x = so_rc y /\ el (so_sk x) (so_sk y) /\ el (so_sm x) (so_sm y) /\ so_smlen x = so_smlen y.
Lemma r_ref_body idx sk sk' sm sm' smlen mlen : el sk sk' -> el sm sm' ->
  lrel so_rel (ref_sign_body_l p idx sk sm smlen mlen) (ref_sign_body_l p idx sk' sm' smlen mlen).
Proof.
  intros Hk Hm. unfold ref_sign_body_l. rl. call r_prf. rl. apply r_if; intros _; [rl|].
  eapply r_bind; [apply r_hash_message; try elt|].
  - intros. eapply r_weaken; [apply r_rd; elt|intros; now apply ln_el with (k := p_n p)].
  - intros [h b] [h' b'] [Hh Hb]; cbn [fst snd] in *. cbv zeta. apply (r_bind eq); [apply r_same|intros th ? <-].
    apply (r_bind (pr (pr (pr (pr eq el) eq) el) anyr)).
    + apply r_for; [|elt]. intros j [[[[v1 v2] v3] v4] v5] [[[[u1 u2] u3] u4] u5] [[[[A1 A2] A3] A4] _]; cbn [fst snd] in *. subst u1 u3. cbv zeta.
      call2 r_wsign. rl. call2 r_treehash. rl.
    + intros [[[[v1 v2] v3] v4] v5] [[[[u1 u2] u3] u4] u5] [[[[A1 A2] A3] A4] _]; cbn [fst snd] in *. apply r_ok. unfold so_rel; cbn [so_rc so_sk so_sm so_smlen]. auto.
Qed.
Lemma r_ref_sign sk sk' sm sm' smlen m m' : el sk sk' -> el sm sm' -> el m m' -> firstn (index_bytes p) sk = firstn (index_bytes p) sk' ->
  lrel so_rel (ref_xmssmt_core_sign_l p sk sm smlen m) (ref_xmssmt_core_sign_l p sk' sm' smlen m').
Proof.
  intros Hk Hs Hm Hi. unfold ref_xmssmt_core_sign_l. cbv zeta. rewrite <- Hm. eapply r_bind; [apply r_wr; elt|intros ? ? ?].
  apply (r_bind eq).
  { split; [reflexivity|]. cbn [rd_l outcome]. unfold rd. rewrite Hk. cbn [skipn Nat.add]. destruct (_ <=? _); [exact Hi|exact I]. }
  intros ix ? <-. apply (r_bind eq); [apply r_same|intros idx ? <-]. apply (r_bind eq); [apply r_same|intros lim ? <-]. cbv zeta.
  apply r_if; intros _; [|now apply r_ref_body]. rl.
  apply r_if; intros _; [apply r_ok; unfold so_rel; cbn [so_rc so_sk so_sm so_smlen]; auto|].
  apply r_if; intros _; [apply r_ok; unfold so_rel; cbn [so_rc so_sk so_sm so_smlen]; auto|]. now apply r_ref_body.
Qed.
End Rel.
