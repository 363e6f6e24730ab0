(** Keys that agree on their public bytes: loading, storing. *)
From Verif Require Import Base Lib ModelUtils ModelParams ModelHash ModelWots ModelCommons ModelCore ModelCoreFast ModelXmss SpecRfc SpecParams SpecApi SpecFast ProofUtils ProofHash ModelLeak ModelLeakFast SpecLeak ProofLeak ProofLeak2 ProofLeak3 ProofLeak4.

Lemma skipn_skipn_add {A} a : forall b (l : list A), skipn a (skipn b l) = skipn (a + b) l.
Proof. intros b. revert a. induction b as [|b IH]; intros a l; [now rewrite Nat.add_0_r|]. destruct l as [|x l]; [now rewrite !skipn_nil|]. rewrite Nat.add_succ_r. cbn [skipn]. apply IH. Qed.
Lemma skipn_app_len {A} (a b : list A) k : length a = k -> skipn k (a ++ b) = b.
Proof. intros <-. rewrite skipn_app, skipn_all, Nat.sub_diag. reflexivity. Qed.
Lemma ag_len m x y : agree m x y -> length x = length m /\ length y = length m.
Proof. induction 1; cbn; lia. Qed.
Lemma ag_el m x y : agree m x y -> el x y.
Proof. intros H. destruct (ag_len _ _ _ H). unfold el. lia. Qed.
Lemma ag_app m x y m' x' y' : agree m x y -> agree m' x' y' -> agree (m ++ m') (x ++ x') (y ++ y').
Proof. induction 1; cbn; [auto|constructor; auto|constructor; auto]. Qed.
Lemma ag_skip o : forall m x y, agree m x y -> agree (skipn o m) (skipn o x) (skipn o y).
Proof. induction o as [|o IH]; intros m x y H; [exact H|]. destruct H; cbn [skipn]; [constructor|now apply IH|now apply IH]. Qed.
Lemma ag_first o : forall m x y, agree m x y -> agree (firstn o m) (firstn o x) (firstn o y).
Proof. induction o as [|o IH]; intros m x y H; [constructor|]. destruct H; cbn [firstn]; constructor; now apply IH. Qed.
Lemma ag_refl m : forall x, length x = length m -> agree m x x.
Proof. induction m as [|b m IH]; intros [|c x] H; cbn in H; try discriminate; [constructor|]. destruct b; constructor; apply IH; lia. Qed.
Lemma ag_pub k x y : agree (public k) x y -> x = y.
Proof. revert x y. induction k as [|k IH]; intros x y H; cbn in H; inversion H; subst; [reflexivity|]. f_equal. now apply IH. Qed.
Lemma ag_sec k : forall x y, length x = k -> length y = k -> agree (secret k) x y.
Proof. induction k as [|k IH]; intros [|b x] [|c y] H1 H2; cbn in *; try discriminate; constructor. apply IH; lia. Qed.
Lemma first_app {A} k (a b : list A) : length a = k -> firstn k (a ++ b) = a.
Proof. intros <-. rewrite firstn_app, firstn_all2, Nat.sub_diag by lia. cbn. apply app_nil_r. Qed.
Lemma ag_first_eq k m x y rest : agree m x y -> m = public k ++ rest -> firstn k x = firstn k y.
Proof.
  intros H ->. apply (ag_pub k). replace (public k) with (firstn k (public k ++ rest)); [now apply ag_first|].
  apply first_app, repeat_length.
Qed.
Lemma sk_in {A} o (m a b : list A) : skipn o m = a ++ b -> skipn (o + length a) m = b.
Proof. intros H. rewrite Nat.add_comm, <- skipn_skipn_add, H. apply skipn_app_len. reflexivity. Qed.
Lemma rep_cat {A} (a : list A) k : concat (repeat a (Datatypes.S k)) = a ++ concat (repeat a k).
Proof. reflexivity. Qed.
Lemma rep_len {A} (a : list A) k : length (concat (repeat a k)) = k * length a.
Proof. induction k as [|k IH]; [reflexivity|]. rewrite rep_cat, app_length, IH. lia. Qed.
Lemma sk_rep {A} j : forall k o (m a b : list A), skipn o m = concat (repeat a k) ++ b -> j <= k -> skipn (o + j * length a) m = concat (repeat a (k - j)) ++ b.
Proof.
  induction j as [|j IH]; intros k o m a b H Hj; [rewrite Nat.add_0_r, Nat.sub_0_r; exact H|]. destruct k as [|k]; [lia|].
  rewrite rep_cat, <- app_assoc in H. apply sk_in in H. apply IH in H; [|lia]. replace (o + Datatypes.S j * length a) with (o + length a + j * length a) by lia. exact H.
Qed.

Section Rel.
Context {E : Env} (f : event -> event).
Notation lrel := (lrel f).

Lemma r_okb {A B} (Q : B -> B -> Prop) (a a' : A) k k' : lrel Q (k a) (k' a') -> lrel Q (lbind (silent (Ok a)) k) (lbind (silent (Ok a')) k').
Proof. intros H. exact H. Qed.
Lemma r_for_i {S} (R : nat -> S -> S -> Prop) b1 b2 : forall k i x y, (forall j u v, i <= j < i + k -> R j u v -> lrel (R (Datatypes.S j)) (b1 j u) (b2 j v)) ->
  R i x y -> lrel (R (i + k)) (lforN k i b1 x) (lforN k i b2 y).
Proof.
  induction k as [|k IH]; intros i x y Hb Hxy; cbn [lforN]; [rewrite Nat.add_0_r; now split|].
  apply (r_bind f (R (Datatypes.S i))).
  - destruct (Hb i x y) as [B1 B2]; [lia|exact Hxy|]. split; [cbn [trace map]; congruence|exact B2].
  - intros u v Huv. replace (i + Datatypes.S k) with (Datatypes.S i + k) by lia. apply IH; [|exact Huv]. intros j u' v' Hj. apply Hb. lia.
Qed.
(** reading public bytes *)
Lemma r_rd_pub m x y o a l k rest : agree m x y -> skipn o m = public k ++ rest -> a + l <= k -> lrel eq (rd_l x (o + a) l) (rd_l y (o + a) l).
Proof.
  intros H Ho Hk. split; [reflexivity|]. cbn [rd_l outcome]. unfold rd. destruct (ag_len _ _ _ H) as [L1 L2]. rewrite L1, L2. destruct (_ <=? _); [|exact I].
  apply (ag_pub l). replace (public l) with (firstn l (skipn (o + a) m)); [apply ag_first, ag_skip, H|].
  rewrite Nat.add_comm, <- skipn_skipn_add, Ho. unfold public. replace k with (a + (l + (k - a - l))) by lia. rewrite !repeat_app, <- !app_assoc.
  rewrite skipn_app_len by apply repeat_length. apply first_app, repeat_length.
Qed.
(** writing *)
Lemma r_wr_ag m x y o d d' : agree m x y -> agree (firstn (length d) (skipn o m)) d d' -> lrel (agree m) (wr_l x o d) (wr_l y o d').
Proof.
  intros H Hd. pose proof (ag_el _ _ _ Hd) as Hl. unfold el in Hl. split; [cbn; now rewrite Hl|]. cbn [wr_l outcome]. unfold wr. destruct (ag_len _ _ _ H) as [L1 L2]. rewrite L1, L2, <- Hl.
  destruct (_ <=? _); [|exact I]. rewrite <- (firstn_skipn o m), <- (firstn_skipn (length d) (skipn o m)). apply ag_app; [apply ag_first, H|].
  apply ag_app; [exact Hd|]. rewrite skipn_skipn_add, (Nat.add_comm (length d)). apply ag_skip, H.
Qed.
Lemma r_wr_same m x y o d : agree m x y -> lrel (agree m) (wr_l x o d) (wr_l y o d).
Proof.
  intros H. destruct (Nat.leb_spec (o + length d) (length m)) as [Hl|Hl].
  - apply r_wr_ag; [exact H|]. apply ag_refl. rewrite firstn_length, skipn_length. lia.
  - split; [reflexivity|]. cbn [wr_l outcome]. unfold wr. destruct (ag_len _ _ _ H) as [L1 L2]. rewrite L1, L2. destruct (Nat.leb_spec (o + length d) (length m)); [lia|exact I].
Qed.
Lemma r_wr_sec m x y o l k a d d' rest : agree m x y -> skipn o m = secret k ++ rest -> a + l <= k -> ln l d d' -> lrel (agree m) (wr_l x (o + a) d) (wr_l y (o + a) d').
Proof.
  intros H Ho Hk [D1 D2]. apply r_wr_ag; [exact H|]. rewrite D1. rewrite Nat.add_comm, <- skipn_skipn_add, Ho. unfold secret. replace k with (a + (l + (k - a - l))) by lia.
  rewrite !repeat_app, <- !app_assoc. rewrite skipn_app_len by apply repeat_length. rewrite first_app by apply repeat_length. now apply ag_sec.
Qed.

Variables (p : xmss_params) (Hf : bytes -> bytes).
Hypothesis HH : hash_total p Hf.
Variables (thc rc : nat).
Hypothesis Hthc : th_count p = Ok thc.
Hypothesis Hrc : retain_count p = Ok rc.
Notation n := (p_n p).
Notation h := (tree_height p).
Notation d := (p_d p).
Notation ib := (index_bytes p).
Notation srel := (srel p thc rc).
Notation threl := (threl p).
Notation SM := (state_mask n h (bds_k p) rc).
Notation TM := (public 7 ++ secret n).
Notation KM := (core_mask n h d ib (wots_sig_bytes p) (bds_k p) rc).

Lemma thc_eq : h - bds_k p = thc.
Proof. unfold th_count in Hthc. destruct (_ <? _); congruence. Qed.

Lemma r_load_th m x y o rest : agree m x y -> skipn o m = TM ++ rest -> lrel threl (load_th_l p x o) (load_th_l p y o).
Proof.
  intros H Ho. rewrite <- app_assoc in Ho. unfold load_th_l.
  apply (r_bind f eq); [rewrite <- (Nat.add_0_r o); eapply r_rd_pub; eauto; lia|intros b0 ? <-]. apply (r_bind f eq); [apply r_same|intros ? ? <-].
  do 3 (apply (r_bind f eq); [eapply r_rd_pub; eauto; lia|intros ? ? <-]; apply (r_bind f eq); [apply r_same|intros ? ? <-]).
  eapply r_bind; [apply r_rd; exact (ag_el _ _ _ H)|intros ? ? ?]. apply r_ok. now constructor.
Qed.
Lemma tm_len : length TM = 7 + n.
Proof. rewrite app_length. unfold public, secret. now rewrite !repeat_length. Qed.
Lemma sm_len : length SM = (h + 1) * n + 4 + (h + 1) + h * n + h / 2 * n + thc * (7 + n) + rc * n + 4.
Proof. unfold state_mask. rewrite !app_length, rep_len, tm_len, thc_eq. unfold public, secret. rewrite !repeat_length. lia. Qed.
Ltac go Ho Hp := pose proof (sk_in _ _ _ _ Ho) as Hp; unfold secret at 1, public at 1 in Hp; rewrite repeat_length in Hp.
Lemma r_load_state m x y o rest : agree m x y -> skipn o m = SM ++ rest ->
  lrel (pr srel (fun a b => a = b /\ a = o + length SM)) (load_state_l p x o) (load_state_l p y o).
Proof.
  intros H Ho. pose proof (ag_el _ _ _ H) as Hel. rewrite sm_len. unfold state_mask in Ho. rewrite <- !app_assoc in Ho. rewrite thc_eq in Ho.
  unfold load_state_l. cbv zeta. rewrite Hthc, Hrc. apply r_okb, r_okb.
  pose proof (sk_in _ _ _ _ Ho) as H1. unfold secret at 1 in H1. rewrite repeat_length in H1.
  pose proof (sk_in _ _ _ _ H1) as H2. unfold public at 1 in H2. rewrite repeat_length in H2.
  pose proof (sk_in _ _ _ _ H2) as H3. unfold public at 1 in H3. rewrite repeat_length in H3.
  pose proof (sk_in _ _ _ _ H3) as H4. unfold secret at 1 in H4. rewrite repeat_length in H4.
  pose proof (sk_in _ _ _ _ H4) as H5. unfold secret at 1 in H5. rewrite repeat_length in H5.
  pose proof (sk_in _ _ _ _ H5) as H6. rewrite rep_len, tm_len in H6.
  pose proof (sk_in _ _ _ _ H6) as H7. unfold secret at 1 in H7. rewrite repeat_length in H7.
  eapply r_bind; [apply r_rd; exact Hel|intros stk stk' Hstk].
  apply (r_bind f eq); [rewrite <- (Nat.add_0_r (o + (h + 1) * n)); eapply r_rd_pub; [exact H|exact H1|lia]|intros b1 ? <-]. apply (r_bind f eq); [apply r_same|intros so ? <-].
  apply (r_bind f (fun a b => a = b /\ length a = h + 1)).
  { assert (Q : lrel eq (rd_l x (o + (h + 1) * n + 4) (h + 1)) (rd_l y (o + (h + 1) * n + 4) (h + 1)))
      by (rewrite <- (Nat.add_0_r (o + (h + 1) * n + 4)); eapply r_rd_pub; [exact H|exact H2|lia]).
    destruct Q as [Q1 Q2]. pose proof (r_rd f x y (o + (h + 1) * n + 4) (h + 1) Hel) as [_ Q3]. split; [exact Q1|].
    destruct (outcome (rd_l x _ _)), (outcome (rd_l y _ _)); try tauto. split; [exact Q2|apply Q3]. }
  intros lv ? [<- Hlv].
  eapply r_bind; [apply r_rd; exact Hel|intros au au' Hau]. eapply r_bind; [apply r_rd; exact Hel|intros kp kp' Hkp].
  apply (r_bind f (fun a b => Forall2 threl a b /\ length a = 0 + thc)).
  { apply (r_for_i (fun j a b => Forall2 threl a b /\ length a = j)); [|auto]. intros j u v Hj [Hu Hv].
    pose proof (sk_rep j _ _ _ _ _ H5) as Hp. rewrite tm_len in Hp. destruct (thc - j) as [|q] eqn:Eq; [lia|]. rewrite rep_cat, <- app_assoc in Hp.
    eapply r_bind; [eapply r_load_th; [exact H|apply Hp; lia]|intros t t' Ht]. apply r_ok. split; [apply f2_app; auto|]. rewrite app_length. cbn. lia. }
  intros ths ths' [Ht1 Ht2]. eapply r_bind; [apply r_rd; exact Hel|intros rt rt' Hrt].
  match goal with |- lrel _ (lbind (rd_l x ?o _) _) _ => apply (r_bind f eq); [rewrite <- (Nat.add_0_r o); eapply r_rd_pub; [exact H|exact H7|lia]|intros b2 ? <-] end.
  apply (r_bind f eq); [apply r_same|intros nl ? <-]. apply r_ok. apply pr_i; [constructor; assumption || reflexivity|]. split; [reflexivity|]. lia.
Qed.
Lemma km_states : skipn (ib + 4 * n) KM = concat (repeat SM (nstates p)) ++ secret ((d - 1) * wots_sig_bytes p).
Proof.
  unfold core_mask. rewrite app_assoc. apply skipn_app_len. rewrite app_length. unfold public, secret. now rewrite !repeat_length.
Qed.
Definition ssrel := fun a b => Forall2 srel a b /\ length a = nstates p.
Lemma r_deser x y : agree KM x y -> lrel (pr ssrel (ln ((d - 1) * wots_sig_bytes p))) (xmssmt_deserialize_state_l p x) (xmssmt_deserialize_state_l p y).
Proof.
  intros H. unfold xmssmt_deserialize_state_l. apply r_if; intros _; [apply r_ub|].
  apply (r_bind f (fun a b => ssrel (fst a) (fst b) /\ snd a = snd b)).
  - eapply r_weaken; [apply (r_for_i (fun j a b => (Forall2 srel (fst a) (fst b) /\ length (fst a) = j) /\ snd a = snd b /\ snd a = ib + 4 * n + j * length SM))|].
    + intros j [l o] [l' o'] Hj [[A1 A2] [A3 A4]]; cbn [fst snd] in *. subst o'. pose proof (sk_rep j _ _ _ _ _ km_states) as Hp. rewrite <- A4 in Hp.
      destruct (nstates p - j) as [|q] eqn:Eq; [lia|]. rewrite rep_cat, <- app_assoc in Hp.
      eapply r_bind; [eapply r_load_state; [exact H|apply Hp; lia]|]. intros [s o1] [s' o1'] [Hs [Ho1 Ho2]]; cbn [fst snd] in *. subst o1'. apply r_ok. cbn [fst snd].
      rewrite app_length. cbn [length]. repeat split; auto; try lia. apply f2_app; auto.
    + cbn [fst snd length]. repeat split; auto; lia.
    + intros [l o] [l' o'] [[A1 A2] [A3 A4]]; cbn [fst snd] in *. split; [split; [exact A1|lia]|exact A3].
  - intros [ss o] [ss' o'] [A1 A2]; cbn [fst snd] in *. subst o'. eapply r_bind; [apply r_rd; exact (ag_el _ _ _ H)|intros ws ws' Hws]. apply r_ok. now apply pr_i.
Qed.
Lemma ull_len k x : length (ull_to_bytes k x) = k.
Proof. now rewrite ull_to_bytes_spec, toByte_length. Qed.
Lemma ag_same_pub k x : length x = k -> agree (public k) x x.
Proof. intros H. apply ag_refl. unfold public. now rewrite repeat_length. Qed.
Lemma ag_ths l l' : Forall2 threl l l' -> agree (concat (repeat TM (length l))) (concat (map (store_th p) l)) (concat (map (store_th p) l')).
Proof.
  induction 1 as [|t t' l l' Ht Hl IH]; [constructor|]. cbn [length map concat]. rewrite rep_cat. apply ag_app; [|exact IH].
  destruct t as [a b c e g], t' as [a' b' c' e' g'], Ht as [T1 T2 T3 T4 [T5 T6]]. unfold store_th. cbn [th_h th_next_idx th_stackusage th_completed th_node] in *. subst.
  rewrite !app_assoc. apply ag_app; [|now apply ag_sec]. rewrite <- !app_assoc. apply ag_same_pub. rewrite !app_length, !ull_len. reflexivity.
Qed.
Lemma ag_state s s' : srel s s' -> agree SM (store_state p s) (store_state p s').
Proof.
  intros [A1 A2 A3 A4 [A5 A5'] [A6 A6'] [A7 A7'] A8 A9 [A10 A10']]. unfold state_mask, store_state. rewrite <- A1, <- A2, <- A3.
  repeat (apply ag_app; [first [now apply ag_sec | apply ag_same_pub; first [assumption|apply ull_len] | rewrite thc_eq, <- A9; now apply ag_ths]|]). apply ag_same_pub, ull_len.
Qed.
Lemma ag_states l l' : Forall2 srel l l' -> agree (concat (repeat SM (length l))) (concat (map (store_state p) l)) (concat (map (store_state p) l')).
Proof. induction 1 as [|t t' l l' Ht Hl IH]; [constructor|]. cbn [length map concat]. rewrite rep_cat. apply ag_app; [now apply ag_state|exact IH]. Qed.
Lemma r_ser x y ss ss' ws ws' : agree KM x y -> ssrel ss ss' -> ln ((d - 1) * wots_sig_bytes p) ws ws' -> lrel (agree KM) (xmssmt_serialize_state_l p x ss ws) (xmssmt_serialize_state_l p y ss' ws').
Proof.
  intros H [S1 S2] [W1 W2]. unfold xmssmt_serialize_state_l. apply r_wr_ag; [exact H|]. rewrite km_states, <- S2.
  assert (Q : agree (concat (repeat SM (length ss)) ++ secret ((d - 1) * wots_sig_bytes p)) (concat (map (store_state p) ss) ++ ws) (concat (map (store_state p) ss') ++ ws'))
    by (apply ag_app; [now apply ag_states|now apply ag_sec]).
  rewrite firstn_all2 by (rewrite (proj1 (ag_len _ _ _ Q)); lia). exact Q.
Qed.
Lemma r_put ss ss' i s s' : ssrel ss ss' -> srel s s' -> lrel ssrel (wrc_l ss i s) (wrc_l ss' i s').
Proof.
  intros [Hl Hn] Ht. split; [reflexivity|]. cbn [wrc_l outcome]. unfold wrc. rewrite (f2_len _ _ _ Hl). destruct (_ <? _); [|exact I].
  split; [now apply f2_upd|]. now rewrite upd_length.
Qed.
Lemma r_get ss ss' i : ssrel ss ss' -> lrel srel (rdc_l ss i) (rdc_l ss' i).
Proof. intros [Hl _]. now apply r_rdc_f. Qed.
End Rel.
