(** The calls of the fast core on keys that agree on their public bytes: the traces. *)
From Verif Require Import Base Lib ModelUtils ModelParams ModelHash ModelWots ModelCommons ModelCore ModelCoreFast ModelXmss SpecRfc SpecParams SpecApi SpecFast ProofUtils ProofHash ModelLeak ModelLeakFast SpecLeak ProofLeak ProofLeak2 ProofLeak3 ProofLeak4 ProofLeak5.

Section Rel.
Context {E : Env} (f : event -> event).
Notation lrel := (lrel f).
Variables (p : xmss_params) (Hf : bytes -> bytes).
Hypothesis HH : hash_total p Hf.
Variables (thc rc : nat).
Hypothesis Hthc : th_count p = Ok thc.
Hypothesis Hrc : retain_count p = Ok rc.
Notation n := (p_n p).
Notation h := (tree_height p).
Notation d := (p_d p).
Notation ib := (index_bytes p).
Notation srel := (srel p thc rc).
Notation threl := (threl p).
Notation ssrel := (ssrel p thc rc).
Notation KM := (core_mask n h d ib (wots_sig_bytes p) (bds_k p) rc).
Notation wln := (ln ((d - 1) * wots_sig_bytes p)).

Lemma km_seeds : exists rest, skipn ib KM = secret (4 * n) ++ rest.
Proof. eexists. unfold core_mask. apply skipn_app_len. apply repeat_length. Qed.
Lemma r_wr_seed x y a l z z' : agree KM x y -> ln l z z' -> a + l <= 4 * n -> lrel (agree KM) (wr_l x (ib + a) z) (wr_l y (ib + a) z').
Proof. intros H Hz Ha. destruct km_seeds as [rest Hr]. eapply r_wr_sec; eauto. Qed.
Lemma sr_reset s s' : srel s s' -> srel (set_next_leaf (set_stackoffset s 0) 0%N) (set_next_leaf (set_stackoffset s' 0) 0%N).
Proof. intros [A1 A2 A3 A4 A5 A6 A7 A8 A9 A10]. constructor; cbn; auto. Qed.
Lemma rand_ln r r' o k : ln k (rand_take r o k) (rand_take r' o k).
Proof. unfold ln, rand_take. now rewrite !map_length, !seq_length. Qed.
Ltac rd1 := eapply r_bind; [apply r_rd; first [elt|eapply ag_el; eassumption|eapply ln_el; eassumption]|intros ? ? ?].
Ltac wr1 := eapply r_bind; [apply r_wr; elt|intros ? ? ?].

Lemma r_fast_keypair pk pk' sk sk' r r' : el pk pk' -> agree KM sk sk' ->
  lrel (pr (pr eq el) (agree KM)) (fast_xmss_core_keypair_l p pk sk r) (fast_xmss_core_keypair_l p pk' sk' r').
Proof.
  intros Hp Hk. unfold fast_xmss_core_keypair_l. cbv zeta.
  eapply r_bind; [eapply r_deser; eassumption|]. intros [ss ws] [ss' ws'] [Hss Hws]; cbn [fst snd] in *.
  eapply r_bind; [eapply r_get; eassumption|intros s s' Hs].
  eapply r_bind; [apply r_wr_same; eassumption|intros k1 k1' K1].
  eapply r_bind; [rewrite <- (Nat.add_0_r ib); eapply r_wr_seed; [eassumption|apply rand_ln|lia]|intros k2 k2' K2].
  eapply r_bind; [eapply r_wr_seed; [eassumption|apply rand_ln|lia]|intros k3 k3' K3].
  rd1. wr1. rd1.
  eapply r_bind; [eapply r_init; try eassumption; try elt; now apply sr_reset|]. intros [rt s1] [rt' s1'] [Hrt Hs1]; cbn [fst snd] in *.
  wr1. eapply r_bind; [eapply r_wr_seed; [eassumption|eassumption|lia]|intros k4 k4' K4].
  eapply r_bind; [eapply r_put; eassumption|intros ss1 ss1' Hss1].
  eapply r_bind; [eapply r_ser; eassumption|intros k5 k5' K5]. apply r_ok. pis; auto.
Qed.

Definition fso_rel (x y : sign_out) : Prop := so_rc x = so_rc y /\ agree KM (so_sk x) (so_sk y) /\ el (so_sm x) (so_sm y) /\ so_smlen x = so_smlen y.
Lemma fso_i rc0 k k' sm sm' l : agree KM k k' -> el sm sm' -> fso_rel (mkSign rc0 k sm l) (mkSign rc0 k' sm' l).
Proof. intros H1 H2. unfold fso_rel; cbn; auto. Qed.

Lemma reload_th_rel a a' b b' : threl a a' -> threl b b' -> threl (reload_th a b) (reload_th a' b').
Proof. intros [A1 A2 A3 A4 A5] [B1 B2 B3 B4 B5]. constructor; cbn [reload_th th_h th_next_idx th_stackusage th_completed th_node]; auto. Qed.
Lemma f2_comb {A} (R : A -> A -> Prop) (g : A -> A -> A) : (forall x x' y y', R x x' -> R y y' -> R (g x y) (g x' y')) ->
  forall l1 l1' l2 l2', Forall2 R l1 l1' -> Forall2 R l2 l2' -> Forall2 R (map (fun q => g (fst q) (snd q)) (combine l1 l2)) (map (fun q => g (fst q) (snd q)) (combine l1' l2')).
Proof. intros Hg l1 l1' l2 l2' H1. revert l2 l2'. induction H1 as [|x y l l' Hx Hl IH]; intros l2 l2' H2; [constructor|]. destruct H2 as [|u v m m' Hu Hm]; cbn; [constructor|]. constructor; [now apply Hg|now apply IH]. Qed.
Lemma reload_rel a a' b b' : srel a a' -> srel b b' -> srel (reload a b) (reload a' b').
Proof.
  intros [A1 A2 A3 A4 A5 A6 A7 A8 A9 A10] [B1 B2 B3 B4 B5 B6 B7 B8 B9 B10].
  constructor; cbn [reload st_stack st_stackoffset st_stacklevels st_auth st_keep st_treehash st_retain st_next_leaf]; auto.
  - apply f2_comb; auto. apply reload_th_rel.
  - rewrite map_length, combine_length. lia.
Qed.
Lemma reload_all_rel l l' m m' : ssrel l l' -> ssrel m m' -> ssrel (reload_all l m) (reload_all l' m').
Proof. intros [A1 A2] [B1 B2]. split; [apply f2_comb; auto; apply reload_rel|]. unfold reload_all. rewrite map_length, combine_length. lia. Qed.

(** from here on chains are seen as one event *)
Hypothesis Hc : forall t t', f (Chain t) = f (Chain t').

Lemma r_fast_mt_keypair pk pk' sk sk' r r' : el pk pk' -> agree KM sk sk' ->
  lrel (pr (pr eq el) (agree KM)) (fast_xmssmt_core_keypair_l p pk sk r) (fast_xmssmt_core_keypair_l p pk' sk' r').
Proof.
  intros Hp Hk. unfold fast_xmssmt_core_keypair_l. cbv zeta.
  eapply r_bind; [eapply r_deser; eassumption|]. intros [ss ws] [ss' ws'] [[Hss Hsl] Hws]; cbn [fst snd] in *.
  assert (Hm : ssrel (map (fun s => set_next_leaf (set_stackoffset s 0) 0%N) ss) (map (fun s => set_next_leaf (set_stackoffset s 0) 0%N) ss'))
    by (split; [eapply f2_map; [|exact Hss]; apply sr_reset|now rewrite map_length]).
  eapply r_bind; [apply r_wr_same; eassumption|intros k1 k1' K1].
  eapply r_bind; [rewrite <- (Nat.add_0_r ib); eapply r_wr_seed; [eassumption|apply rand_ln|lia]|intros k2 k2' K2].
  eapply r_bind; [eapply r_wr_seed; [eassumption|apply rand_ln|lia]|intros k3 k3' K3].
  rd1. wr1. rd1.
  apply (r_bind f (pr (pr (pr el ssrel) wln) anyr)).
  - apply r_for; [|pis; auto; exact I]. intros i [[[va1 va2] va3] va4] [[[vb1 vb2] vb3] vb4] [[[A1 A2] A3] _]; cbn [fst snd] in *.
    eapply r_bind; [eapply r_get; eassumption|intros s s' Hs].
    eapply r_bind; [eapply r_init; try eassumption; elt|]. intros [rt s1] [rt' s1'] [Hrt Hs1]; cbn [fst snd] in *.
    wr1. eapply r_bind; [eapply r_put; eassumption|intros ss1 ss1' Hss1].
    eapply r_bind; [eapply r_wsign; try eassumption; elt|]. intros [sg a1] [sg' a1'] [Hsg _]; cbn [fst snd] in *.
    eapply r_bind; [eapply r_wr_n; eassumption|intros ws1 ws1' Hws1]. apply r_ok. pis; auto; exact I.
  - intros [[[va1 va2] va3] va4] [[[vb1 vb2] vb3] vb4] [[[A1 A2] A3] _]; cbn [fst snd] in *.
    eapply r_bind; [eapply r_get; eassumption|intros s s' Hs].
    eapply r_bind; [eapply r_init; try eassumption; elt|]. intros [rt s1] [rt' s1'] [Hrt Hs1]; cbn [fst snd] in *.
    wr1. eapply r_bind; [eapply r_put; eassumption|intros ss1 ss1' Hss1].
    eapply r_bind; [eapply r_wr_seed; [eassumption|eassumption|lia]|intros k4 k4' K4].
    eapply r_bind; [eapply r_ser; eassumption|intros k5 k5' K5]. apply r_ok. pis; auto.
Qed.

Lemma r_fast_body idx sk sk' ss ss' ws ws' sm sm' m m' : agree KM sk sk' -> ssrel ss ss' -> wln ws ws' -> el sm sm' -> el m m' ->
  lrel fso_rel (fast_sign_body_l p idx sk ss ws sm m) (fast_sign_body_l p idx sk' ss' ws' sm' m').
Proof.
  intros Hk Hs Hw Hsm Hm. unfold fast_sign_body_l. cbv zeta. rd1. rd1. rd1. eapply r_bind; [eapply r_get; eassumption|intros s s' Hs0].
  eapply r_bind; [apply r_wr_same; eassumption|intros k1 k1' K1]. eapply r_bind; [eapply r_prf; [eassumption|elt|elt]|intros R R' HR].
  wr1. rd1. apply r_if; intros _; [apply r_ub|]. rewrite <- Hm.
  eapply r_bind; [eapply r_hash_message; [eassumption|elt|elt|]; intros; apply r_ok; elt|]. intros [mh sm1] [mh' sm1'] [Hmh Hsm1]; cbn [fst snd] in *.
  wr1. wr1. eapply r_bind; [eapply r_wsign; try eassumption; elt|]. intros [sg a1] [sg' a1'] [Hsg _]; cbn [fst snd] in *.
  wr1. eapply r_bind; [apply r_rd; exact (ln_el _ _ _ (sr_auth _ _ _ _ _ Hs0))|intros ? ? ?]. wr1.
  apply (r_bind f eq); [apply r_same|intros lim ? <-]. apply (r_bind f srel).
  - apply r_if; intros _; [|now apply r_ok]. eapply r_bind; [eapply r_round; try eassumption; elt|intros s1 s1' Hs1].
    eapply r_bind; [eapply r_bds_update; try eassumption; elt|]. intros [s2 u] [s2' u'] [Hs2 _]; cbn [fst snd] in *. now apply r_ok.
  - intros s1 s1' Hs1. wr1. eapply r_bind; [eapply r_put; eassumption|intros ss1 ss1' Hss1].
    eapply r_bind; [eapply r_ser; eassumption|intros k5 k5' K5]. apply r_ok. apply fso_i; auto.
Qed.
Lemma r_wipe x y (Q : sign_out -> sign_out -> Prop) c c' : agree KM x y -> (forall u v, agree KM u v -> lrel Q (c u) (c' v)) ->
  lrel Q (let! sk := wr_l x 0 (repeat 255%N ib) in let! sk := wr_l sk ib (repeat 0%N (ModelParams.sk_bytes p - ib)) in c sk)
         (let! sk := wr_l y 0 (repeat 255%N ib) in let! sk := wr_l sk ib (repeat 0%N (ModelParams.sk_bytes p - ib)) in c' sk).
Proof. intros H Hq. eapply r_bind; [apply r_wr_same; exact H|intros ? ? ?]. eapply r_bind; [apply r_wr_same; eassumption|]. exact Hq. Qed.
Lemma km_ib x y o l : agree KM x y -> o + l <= ib -> lrel eq (rd_l x o l) (rd_l y o l).
Proof. intros H Hl. apply (r_rd_pub f KM x y 0 o l ib (skipn ib KM) H); [|exact Hl]. unfold core_mask. cbn [skipn]. f_equal. symmetry. apply skipn_app_len. apply repeat_length. Qed.
Lemma r_fast_sign sk sk' sm sm' smlen m m' : ib = 4 -> agree KM sk sk' -> el sm sm' -> el m m' ->
  lrel fso_rel (fast_xmss_core_sign_l p sk sm smlen m) (fast_xmss_core_sign_l p sk' sm' smlen m').
Proof.
  intros Hib Hk Hs Hm. unfold fast_xmss_core_sign_l. cbv zeta.
  eapply r_bind; [eapply r_deser; eassumption|]. intros [ss ws] [ss' ws'] [Hss Hws]; cbn [fst snd] in *.
  apply (r_bind f eq); [apply km_ib; [exact Hk|lia]|intros ix ? <-]. apply (r_bind f eq); [apply r_same|intros idx ? <-]. apply (r_bind f eq); [apply r_same|intros lim ? <-].
  apply r_if; intros _; [|now apply r_fast_body]. apply r_wipe; [exact Hk|]. intros u v Huv.
  apply r_if; intros _; [apply r_ok; apply fso_i; auto|]. apply r_if; intros _; [apply r_ok; apply fso_i; auto|].
  eapply r_bind; [eapply r_deser; eassumption|]. intros [zs wz] [zs' wz'] [Hzs Hwz]; cbn [fst snd] in *. apply r_fast_body; auto. now apply reload_all_rel.
Qed.

(** ** XMSSMT *)
Definition mvr (v v' : mt_vars) : Prop := ssrel (mv_ss v) (mv_ss v') /\ wln (mv_ws v) (mv_ws v') /\ mv_updates v = mv_updates v' /\ mv_swap v = mv_swap v'.
Lemma mvr_i ss ss' ws ws' a a' o o' u w : ssrel ss ss' -> wln ws ws' -> mvr (mkMt ss ws a o u w) (mkMt ss' ws' a' o' u w).
Proof. intros. unfold mvr; cbn; auto. Qed.
Lemma r_swap ss ss' a b : ssrel ss ss' -> lrel ssrel (deep_state_swap_l ss a b) (deep_state_swap_l ss' a b).
Proof.
  intros H. unfold deep_state_swap_l. eapply r_bind; [eapply r_get; eassumption|intros ? ? ?]. eapply r_bind; [eapply r_get; eassumption|intros ? ? ?].
  eapply r_bind; [eapply r_put; eassumption|intros ? ? ?]. eapply r_put; eassumption.
Qed.
Ltac pure1 := apply (r_bind f eq); [apply r_same|intros ? ? <-].
Lemma r_layer idx sd sd' ps ps' i v v' : el sd sd' -> ln n ps ps' -> mvr v v' ->
  lrel mvr (mt_layer_step_l p idx sd ps i v) (mt_layer_step_l p idx sd' ps' i v').
Proof.
  intros Hd Hp Hv. destruct v as [ss ws a o u w], v' as [ss' ws' a' o' u' w'], Hv as [V1 [V2 [V3 V4]]]. cbn [mv_ss mv_ws mv_updates mv_swap] in *. subst u' w'.
  pose proof (ln_el _ _ _ Hp) as Hpe.
  unfold mt_layer_step_l. cbv zeta. cbn [mv_ss mv_ws mv_updates mv_swap mv_addr mv_ots]. do 3 pure1. apply r_if; intros _.
  - do 2 pure1. eapply r_bind; [eapply r_get; eassumption|intros s s' Hs]. apply (r_bind f srel).
    { apply r_if; intros _; [eapply r_round; eassumption|now apply r_ok]. }
    intros s1 s1' Hs1. eapply r_bind; [eapply r_bds_update; eassumption|]. intros [s2 u2] [s2' u2'] [Hs2 Hu]; cbn [fst snd] in *. subst u2'.
    eapply r_bind; [eapply r_put; eassumption|intros ss1 ss1' Hss1]. pure1.
    apply r_if; intros _; [|apply r_ok; now apply mvr_i]. apply r_if; intros _; [|apply r_ok; now apply mvr_i].
    eapply r_bind; [eapply r_get; eassumption|intros nx nx' Hnx]. rewrite <- (sr_nl _ _ _ _ _ Hnx). apply r_if; intros _; [|apply r_ok; now apply mvr_i].
    eapply r_bind; [eapply r_state_update; eassumption|intros n1 n1' Hn1]. eapply r_bind; [eapply r_put; eassumption|intros ss2 ss2' Hss2]. apply r_ok. now apply mvr_i.
  - apply r_if; intros _; [|apply r_ok; now apply mvr_i]. eapply r_bind; [apply r_swap; eassumption|intros ss1 ss1' Hss1]. do 2 pure1.
    eapply r_bind; [eapply r_get; eassumption|intros s s' Hs]. eapply r_bind; [eapply r_wsign; try eassumption; exact (ln_el _ _ _ (sr_stack _ _ _ _ _ Hs))|].
    intros [sg a1] [sg' a1'] [Hsg _]; cbn [fst snd] in *. eapply r_bind; [eapply r_wr_n; eassumption|intros ws1 ws1' Hws1].
    eapply r_bind; [eapply r_get; eassumption|intros nx nx' Hnx]. eapply r_bind; [eapply r_put; [eassumption|apply sr_reset; eassumption]|intros ss2 ss2' Hss2].
    eapply r_bind; [eapply r_put; [eassumption|]|intros ss3 ss3' Hss3; apply r_ok; now apply mvr_i].
    destruct Hs as [A1 A2 A3 A4 A5 A6 A7 A8 A9 A10]. constructor; cbn [set_treehash st_stack st_stackoffset st_stacklevels st_auth st_keep st_treehash st_retain st_next_leaf]; auto; [|now rewrite map_length].
    eapply f2_map; [|exact A8]. intros t t' [T1 T2 T3 T4 T5]. constructor; cbn; auto.
Qed.
Lemma r_mt_body idx sk sk' ss ss' ws ws' sm sm' m m' : agree KM sk sk' -> ssrel ss ss' -> wln ws ws' -> el sm sm' -> el m m' ->
  lrel fso_rel (fast_mt_sign_body_l p idx sk ss ws sm m) (fast_mt_sign_body_l p idx sk' ss' ws' sm' m').
Proof.
  intros Hk Hs Hw Hsm Hm. unfold fast_mt_sign_body_l. cbv zeta. rd1. rd1. eapply r_bind; [apply r_rd; exact (ag_el _ _ _ Hk)|intros ps ps' Hps].
  eapply r_bind; [apply r_wr_same; eassumption|intros k1 k1' K1]. eapply r_bind; [eapply r_prf; [eassumption|elt|elt]|intros R R' HR].
  wr1. rd1. apply r_if; intros _; [apply r_ub|]. rewrite <- Hm.
  eapply r_bind; [eapply r_hash_message; [eassumption|elt|elt|]; intros; apply r_ok; elt|]. intros [mh sm1] [mh' sm1'] [Hmh Hsm1]; cbn [fst snd] in *.
  wr1. wr1. do 2 pure1. eapply r_bind; [eapply r_wsign; try eassumption; elt|]. intros [sg a1] [sg' a1'] [Hsg _]; cbn [fst snd] in *.
  wr1. eapply r_bind; [eapply r_get; eassumption|intros s0 s0' Hs0]. eapply r_bind; [apply r_rd; exact (ln_el _ _ _ (sr_auth _ _ _ _ _ Hs0))|intros ? ? ?]. wr1.
  apply (r_bind f (pr el eq)).
  { apply r_for; [|pis; auto]. intros i [va1 va2] [vb1 vb2] [A1 A2]; cbn [fst snd] in *. subst vb2. rd1. wr1. eapply r_bind; [eapply r_get; eassumption|intros si si' Hsi].
    eapply r_bind; [apply r_rd; exact (ln_el _ _ _ (sr_auth _ _ _ _ _ Hsi))|intros ? ? ?]. wr1. apply r_ok. pis; auto. }
  intros [va1 va2] [vb1 vb2] [A1 A2]; cbn [fst snd] in *. subst vb2. pure1. apply (r_bind f ssrel).
  { apply r_if; intros _; [|now apply r_ok]. eapply r_bind; [eapply r_get; eassumption|intros nx nx' Hnx]. eapply r_bind; [eapply r_state_update; try eassumption; elt|intros n1 n1' Hn1].
    eapply r_put; eassumption. }
  intros ss1 ss1' Hss1. apply (r_bind f mvr).
  { apply r_for; [|now apply mvr_i]. intros i v v' Hv. apply r_layer; auto. elt. }
  intros v v' [V1 [V2 _]]. wr1. eapply r_bind; [eapply r_ser; eassumption|intros k5 k5' K5]. apply r_ok. apply fso_i; auto.
Qed.
Lemma r_mt_sign sk sk' sm sm' smlen m m' : agree KM sk sk' -> el sm sm' -> el m m' ->
  lrel fso_rel (fast_xmssmt_core_sign_l p sk sm smlen m) (fast_xmssmt_core_sign_l p sk' sm' smlen m').
Proof.
  intros Hk Hs Hm. unfold fast_xmssmt_core_sign_l. cbv zeta.
  eapply r_bind; [eapply r_deser; eassumption|]. intros [ss ws] [ss' ws'] [Hss Hws]; cbn [fst snd] in *.
  apply (r_bind f eq); [apply km_ib; [exact Hk|lia]|intros ix ? <-]. apply (r_bind f eq); [apply r_same|intros idx ? <-]. apply (r_bind f eq); [apply r_same|intros lim ? <-].
  apply r_if; intros _; [|now apply r_mt_body]. apply r_wipe; [exact Hk|]. intros u v Huv.
  apply r_if; intros _; [apply r_ok; apply fso_i; auto|]. apply r_if; intros _; [apply r_ok; apply fso_i; auto|].
  eapply r_bind; [eapply r_deser; eassumption|]. intros [zs wz] [zs' wz'] [Hzs Hwz]; cbn [fst snd] in *. apply r_mt_body; auto. now apply reload_all_rel.
Qed.
End Rel.
