(** Two runs of the fast core with the same control data: the traces. *)
From Verif Require Import Base Lib ModelUtils ModelParams ModelHash ModelWots ModelCommons ModelCore ModelCoreFast ModelXmss SpecRfc SpecParams SpecApi ProofUtils ProofHash ModelLeak ModelLeakFast ProofLeak ProofLeak2 ProofLeak3.

Lemma f2_app {A} (R : A -> A -> Prop) l l' m m' : Forall2 R l l' -> Forall2 R m m' -> Forall2 R (l ++ m) (l' ++ m').
Proof. intros H1 H2. induction H1; cbn; auto. Qed.
Lemma f2_nth {A} (R : A -> A -> Prop) l l' : Forall2 R l l' -> forall i, match nth_error l i, nth_error l' i with Some x, Some y => R x y | None, None => True | _, _ => False end.
Proof. induction 1 as [|x y l l' H1 H2 IH]; intros [|i]; cbn [nth_error]; auto. apply IH. Qed.
Lemma f2_upd {A} (R : A -> A -> Prop) l l' : Forall2 R l l' -> forall i x y, R x y -> Forall2 R (upd l i x) (upd l' i y).
Proof. induction 1 as [|u v l l' H1 H2 IH]; intros [|i] x y Hxy; cbn [upd]; auto. Qed.
Lemma f2_len {A} (R : A -> A -> Prop) l l' : Forall2 R l l' -> length l = length l'.
Proof. induction 1; cbn; congruence. Qed.
Lemma f2_map {A B} (R : A -> A -> Prop) (S : B -> B -> Prop) g l l' : (forall x y, R x y -> S (g x) (g y)) -> Forall2 R l l' -> Forall2 S (map g l) (map g l').
Proof. intros Hg. induction 1; cbn; auto. Qed.

Ltac pis := repeat match goal with |- pr _ _ _ _ => apply pr_i end.
Section Rel.
Context {E : Env} (f : event -> event).
Notation lrel := (lrel f).

Lemma r_rdc_f {A} (R : A -> A -> Prop) l l' i : Forall2 R l l' -> lrel R (rdc_l l i) (rdc_l l' i).
Proof. intros Hl. split; [reflexivity|]. cbn [rdc_l outcome]. unfold rdc. pose proof (f2_nth R l l' Hl i) as Hn. destruct (nth_error l i), (nth_error l' i); tauto. Qed.
Lemma r_wrc_f {A} (R : A -> A -> Prop) l l' i x y : Forall2 R l l' -> R x y -> lrel (Forall2 R) (wrc_l l i x) (wrc_l l' i y).
Proof. intros Hl Hxy. split; [reflexivity|]. cbn [wrc_l outcome]. unfold wrc. rewrite (f2_len R l l' Hl). destruct (_ <? _); [|exact I]. now apply f2_upd. Qed.
Lemma r_wrc_n {A} k (l : list A) i x : length l = k -> lrel (fun a b => a = b /\ length a = k) (wrc_l l i x) (wrc_l l i x).
Proof. intros Hl. split; [reflexivity|]. cbn [wrc_l outcome]. unfold wrc. destruct (_ <? _); [|exact I]. split; [reflexivity|]. now rewrite upd_length. Qed.
Lemma r_wr_n k x y o d d' : ln k x y -> el d d' -> lrel (ln k) (wr_l x o d) (wr_l y o d').
Proof.
  intros [X Y] Hd. split; [cbn; now rewrite Hd|]. cbn [wr_l outcome]. unfold wr. rewrite X, Y, Hd. destruct (Nat.leb_spec (o + length d') k) as [Hl|Hl]; [|exact I].
  unfold el in Hd. split; rewrite !app_length, !firstn_length, !skipn_length; lia.
Qed.
Lemma r_loop_pos {S} (R : S -> S -> Prop) b1 b2 : (forall x y, R x y -> lrel (pr R eq) (b1 x) (b2 y)) -> forall k x y, R x y -> lrel (pr R eq) (lloop_pos k b1 x) (lloop_pos k b2 y).
Proof.
  intros Hb. induction k as [q IH|q IH|]; intros x y Hxy; cbn [lloop_pos]; [| |now apply Hb].
  - eapply r_bind; [now apply Hb|]. intros [x1 c1] [y1 c2] [H1 H2]; cbn [fst snd] in *. subst c2. destruct c1; [now apply r_ok|].
    eapply r_bind; [now apply IH|]. intros [x2 c1] [y2 c2] [H3 H4]; cbn [fst snd] in *. subst c2. destruct c1; [now apply r_ok|]. now apply IH.
  - eapply r_bind; [now apply IH|]. intros [x2 c1] [y2 c2] [H3 H4]; cbn [fst snd] in *. subst c2. destruct c1; [now apply r_ok|]. now apply IH.
Qed.
Lemma r_loopN {S} (R : S -> S -> Prop) b1 b2 : (forall x y, R x y -> lrel (pr R eq) (b1 x) (b2 y)) -> forall k x y, R x y -> lrel (pr R eq) (lloopN k b1 x) (lloopN k b2 y).
Proof. intros Hb [|q] x y Hxy; [now apply r_ok|]. now apply r_loop_pos. Qed.

Variables (p : xmss_params) (Hf : bytes -> bytes).
Hypothesis HH : hash_total p Hf.
Variables (thc rc : nat).
Hypothesis Hthc : th_count p = Ok thc.
Hypothesis Hrc : retain_count p = Ok rc.
Notation n := (p_n p).
Notation h := (tree_height p).

(** instances and states of the two runs: the same control data, node values of the same size *)
Record threl (t t' : treehash_inst) : Prop := mkThr {
  tr_h : th_h t = th_h t'; tr_nx : th_next_idx t = th_next_idx t'; tr_su : th_stackusage t = th_stackusage t'; tr_co : th_completed t = th_completed t';
  tr_nd : ln n (th_node t) (th_node t') }.
Record srel (s s' : bds_state) : Prop := mkSr {
  sr_off : st_stackoffset s = st_stackoffset s'; sr_lv : st_stacklevels s = st_stacklevels s'; sr_nl : st_next_leaf s = st_next_leaf s';
  sr_lvl : length (st_stacklevels s) = h + 1;
  sr_stack : ln ((h + 1) * n) (st_stack s) (st_stack s'); sr_auth : ln (h * n) (st_auth s) (st_auth s'); sr_keep : ln (h / 2 * n) (st_keep s) (st_keep s');
  sr_th : Forall2 threl (st_treehash s) (st_treehash s'); sr_thl : length (st_treehash s) = thc; sr_rt : ln (rc * n) (st_retain s) (st_retain s') }.

Ltac sx := cbn [st_stack st_stackoffset st_stacklevels st_auth st_keep st_treehash st_retain st_next_leaf set_stack set_stackoffset set_stacklevels set_auth set_keep set_treehash set_retain set_next_leaf th_h th_next_idx th_stackusage th_completed th_node fst snd] in *.
(** open two related states *)
Ltac os s s' Hs :=
  let a := fresh "stk" in let b := fresh "off" in let c := fresh "lvs" in let d := fresh "aut" in let e := fresh "kep" in let g := fresh "ths" in let i := fresh "ret" in let j := fresh "nxl" in
  let a' := fresh "stk'" in let b' := fresh "off'" in let c' := fresh "lvs'" in let d' := fresh "aut'" in let e' := fresh "kep'" in let g' := fresh "ths'" in let i' := fresh "ret'" in let j' := fresh "nxl'" in
  destruct s as [a b c d e g i j]; destruct s' as [a' b' c' d' e' g' i' j']; destruct Hs; sx; subst b' c' j'.
Ltac ot t t' Ht :=
  let a := fresh "thh" in let b := fresh "thx" in let c := fresh "thu" in let d := fresh "thd" in let e := fresh "thn" in
  let a' := fresh "thh'" in let b' := fresh "thx'" in let c' := fresh "thu'" in let d' := fresh "thd'" in let e' := fresh "thn'" in
  destruct t as [a b c d e]; destruct t' as [a' b' c' d' e']; destruct Ht; sx; subst a' b' c' d'.
Ltac ss := match goal with
  | |- hash_total _ _ => exact HH
  | |- srel _ _ => constructor; sx; ss
  | |- threl _ _ => constructor; sx; ss
  | |- Forall2 _ _ _ => assumption
  | |- length _ = _ => assumption
  | |- pr _ _ (_, _) (_, _) => apply pr_i; ss
  | _ => elt
  end.
Ltac rl1 := match goal with
  | |- lrel _ (lbind (silent (shl1_int _)) _) _ => apply (r_bind f eq); [apply r_same|intros ? ? <-]
  | |- lrel _ (lbind (silent (shl1_uint _)) _) _ => apply (r_bind f eq); [apply r_same|intros ? ? <-]
  | |- lrel _ (lbind (silent (shl1_ull _)) _) _ => apply (r_bind f eq); [apply r_same|intros ? ? <-]
  | |- lrel _ (lbind (silent (shr_ull _ _)) _) _ => apply (r_bind f eq); [apply r_same|intros ? ? <-]
  | |- lrel _ (lbind (rd_l _ _ _) _) _ => eapply r_bind; [apply r_rd; elt|intros ? ? ?]
  | |- lrel _ (lbind (wr_l _ _ _) _) _ => eapply r_bind; [first [eapply r_wr_n; [eassumption|elt]|apply r_wr; elt]|intros ? ? ?]
  | |- lrel _ (lbind (wrc_l ?l _ _) _) (lbind (wrc_l ?l _ _) _) => eapply r_bind; [apply r_wrc_n; eassumption|intros ? ? [<- ?]]
  | |- lrel _ (lbind (rdc_l ?l _) _) (lbind (rdc_l ?l _) _) => eapply r_bind; [apply r_rdc|intros ? ? <-]
  | |- lrel _ (lbind (rdc_l _ _) _) _ => eapply r_bind; [eapply r_rdc_f; eassumption|intros ? ? ?]
  | |- lrel _ (wr_l _ _ _) _ => first [eapply r_wr_n; [eassumption|elt]|apply r_wr; elt]
  | |- lrel _ (rd_l _ _ _) _ => apply r_rd; elt
  | |- lrel _ (silent (Ok _)) _ => apply r_ok; ss
  | |- lrel _ (silent UB) _ => apply r_ub
  | |- lrel _ (silent NoFuel) _ => apply r_nofuel
  end.
Ltac rl := cbv zeta; sx; repeat (rl1; cbv beta zeta; sx).
Ltac call2 L := eapply r_bind; [eapply L; ss|intros [? ?] [? ?] [? ?]; sx].
Ltac leaf := eapply r_bind; [eapply r_leaf; ss|intros [[? ?] ?] [[? ?] ?] [[? _] _]; sx].

Lemma r_min s s' t t' : srel s s' -> threl t t' -> lrel eq (treehash_minheight_on_stack_l p s t) (treehash_minheight_on_stack_l p s' t').
Proof.
  intros Hs Ht. os s s' Hs. ot t t' Ht. unfold treehash_minheight_on_stack_l. sx. apply r_for; [|reflexivity]. intros i x ? <-.
  apply r_if; intros _; [rl|]. rl. apply r_if; intros _; rl.
Qed.
Lemma th_put ths ths' i t t' : Forall2 threl ths ths' -> length ths = thc -> threl t t' ->
  lrel (fun a b => Forall2 threl a b /\ length a = thc) (wrc_l ths i t) (wrc_l ths' i t').
Proof.
  intros Hl Hn Ht. split; [reflexivity|]. cbn [wrc_l outcome]. unfold wrc. rewrite (f2_len _ _ _ Hl). destruct (_ <? _); [|exact I].
  split; [now apply f2_upd|]. now rewrite upd_length.
Qed.
Lemma r_place s s' i k x x' : srel s s' -> ln n x x' -> lrel srel (place_node_l p s i k x) (place_node_l p s' i k x').
Proof.
  intros Hs Hx. os s s' Hs. unfold place_node_l. rl. apply r_if; intros _; [rl|]. apply r_if; intros _; [rl|]. apply r_if; intros _.
  - rl. match goal with H : threl ?t ?t' |- _ => ot t t' H end. rl. eapply r_bind; [eapply th_put; ss|intros ? ? [? ?]]. rl.
  - apply r_if; intros _; [|rl]. apply r_if; intros _; rl.
Qed.
Lemma r_init_while g : forall idx i ps ps' k st st' lv o s s' a a', el ps ps' -> ln k st st' -> srel s s' ->
  lrel (pr (pr (pr (pr (ln k) eq) eq) srel) anyr) (treehash_init_while_l p g idx i ps st lv o s a) (treehash_init_while_l p g idx i ps' st' lv o s' a').
Proof.
  induction g as [|g IH]; intros idx i ps ps' k st st' lv o s s' a a' Hp Hst Hs; cbn [treehash_init_while_l]; cbv zeta;
    (apply r_if; intros _; [apply r_ok; pis; try reflexivity; try exact I; assumption|]);
    (eapply r_bind; [apply r_rdc|intros ? ? <-]); (eapply r_bind; [apply r_rdc|intros ? ? <-]); (apply r_if; intros _; [apply r_ok; pis; try reflexivity; try exact I; assumption|]); [rl|].
  eapply r_bind; [apply r_rd; elt|intros ? ? ?]. eapply r_bind; [apply r_place; elt || assumption|intros s1 s1' Hs1].
  eapply r_bind; [apply r_rd; elt|intros ? ? ?]. call2 r_thash_h. eapply r_bind; [eapply r_wr_n; [eassumption|elt]|intros ? ? ?].
  eapply r_bind; [apply r_wrc|intros ? ? <-]. apply IH; assumption.
Qed.
Lemma r_init hh s s' sd sd' ps ps' a a' : srel s s' -> el sd sd' -> el ps ps' -> lrel (pr (ln n) srel) (treehash_init_l p hh s sd ps a) (treehash_init_l p hh s' sd' ps' a').
Proof.
  intros Hs Hd Hp. unfold treehash_init_l. cbv zeta. apply (r_bind f eq); [apply r_same|intros ln0 ? <-]. rewrite Hthc.
  apply (r_bind f eq); [apply r_same|intros tc ? <-].
  apply (r_bind f (fun a b => Forall2 threl a b /\ length a = thc)).
  { apply r_for; [|destruct Hs; auto]. intros i x y [H1 H2]. eapply r_bind; [eapply r_rdc_f; eassumption|intros t t' Ht]. ot t t' Ht. eapply th_put; ss. }
  intros ths ths' [Ht1 Ht2].
  apply (r_bind f (pr (pr (pr (pr (pr (pr (ln ((hh + 1) * n)) eq) eq) srel) anyr) anyr) anyr)).
  - apply r_for; [|pis; try reflexivity; try exact I].
    + intros j [[[[[[x1 x2] x3] x4] x5] x6] x7] [[[[[[y1 y2] y3] y4] y5] y6] y7] [[[[[[A1 A2] A3] A4] _] _] _]; cbn [fst snd] in *. subst y2 y3. cbv zeta.
      leaf. rl. eapply r_bind; [apply r_wrc|intros hs' ? <-].
      apply (r_bind f srel).
      * os x4 y4 A4. apply r_if; intros _; [|rl]. rl. match goal with H : threl ?t ?t' |- _ => ot t t' H end. rl. eapply r_bind; [eapply th_put; ss|intros ? ? [? ?]]. rl.
      * intros s1 s1' Hs1. eapply r_bind; [apply r_init_while; eassumption|].
        intros [[[[z1 z2] z3] z4] z5] [[[[t1 t2] t3] t4] t5] [[[[B1 B2] B3] B4] _]; cbn [fst snd] in *. subst t2 t3. apply r_ok. pis; try reflexivity; try exact I; assumption.
    + apply ln_refl; apply uninit_length.
    + os s s' Hs. ss.
  - intros [[[[[[x1 x2] x3] x4] x5] x6] x7] [[[[[[y1 y2] y3] y4] y5] y6] y7] [[[[[[A1 A2] A3] A4] _] _] _]; cbn [fst snd] in *.
    eapply r_bind; [apply r_rd; elt|intros ? ? ?]. apply r_ok. apply pr_i; assumption.
Qed.
Lemma r_upd_while u : forall nx ps ps' s s' o nd nd' nh a a', el ps ps' -> srel s s' -> ln n nd nd' ->
  lrel (pr (pr (pr (ln n) eq) eq) eq) (treehash_update_while_l p u nx ps s o nd nh a) (treehash_update_while_l p u nx ps' s' o nd' nh a').
Proof.
  induction u as [|u IH]; intros nx ps ps' s s' o nd nd' nh a a' Hp Hs Hn; cbn [treehash_update_while_l]; cbv zeta; [rl|].
  apply r_if; intros _; [rl|]. rewrite <- (sr_lv _ _ Hs). eapply r_bind; [apply r_rdc|intros lv ? <-]. apply r_if; intros _; [|rl].
  eapply r_bind; [apply r_rd; exact (ln_el _ _ _ (sr_stack _ _ Hs))|intros ? ? ?]. call2 r_thash_h. apply IH; assumption.
Qed.
Lemma r_update j s s' sd sd' ps ps' a a' : srel s s' -> el sd sd' -> el ps ps' -> lrel srel (treehash_update_l p j s sd ps a) (treehash_update_l p j s' sd' ps' a').
Proof.
  intros Hs Hd Hp. unfold treehash_update_l. cbv zeta. eapply r_bind; [eapply r_rdc_f; exact (sr_th _ _ Hs)|intros t t' Ht]. ot t t' Ht. leaf.
  rewrite <- (sr_off _ _ Hs). eapply r_bind; [eapply r_upd_while; eassumption|].
  intros [[[z1 z2] z3] z4] [[[t1 t2] t3] t4] [[[B1 B2] B3] B4]; cbn [fst snd] in *. subst t2 t3 t4. os s s' Hs. apply r_if; intros _.
  - rl. eapply r_bind; [eapply th_put; ss|intros ? ? [? ?]]. rl.
  - rl. eapply r_bind; [eapply th_put; ss|intros ? ? [? ?]]. rl.
Qed.
Lemma r_select s s' : srel s s' -> lrel eq (select_treehash_l p s) (select_treehash_l p s').
Proof.
  intros Hs. unfold select_treehash_l. rewrite Hthc. apply (r_bind f eq); [apply r_same|intros tc ? <-].
  apply (r_bind f eq); [|intros [? ?] ? <-; now apply r_ok]. apply r_for; [|reflexivity]. intros i [x1 x2] ? <-.
  eapply r_bind; [eapply r_rdc_f; exact (sr_th _ _ Hs)|intros t t' Ht]. apply (r_bind f eq).
  - pose proof Ht as Ht0. rewrite <- (tr_co _ _ Ht). apply r_if; intros _; [now apply r_ok|]. rewrite <- (tr_su _ _ Ht). apply r_if; intros _; [now apply r_ok|]. now apply r_min.
  - intros low ? <-. apply r_if; intros _; now apply r_ok.
Qed.
Lemma r_bds_update s s' u sd sd' ps ps' a a' : srel s s' -> el sd sd' -> el ps ps' -> lrel (pr srel eq) (bds_treehash_update_l p s u sd ps a) (bds_treehash_update_l p s' u sd' ps' a').
Proof.
  intros Hs Hd Hp. unfold bds_treehash_update_l. eapply r_bind.
  - apply (r_loopN (pr srel eq)); [|now apply pr_i]. intros [s1 u1] [s1' u1'] [H1 H2]; cbn [fst snd] in *. subst u1'.
    eapply r_bind; [apply r_select; eassumption|intros sel ? <-]. apply (r_bind f anyr); [now split|intros ? ? _]. destruct sel as [j|].
    + eapply r_bind; [apply r_update; eassumption|intros ? ? ?]. apply r_ok. pis; auto.
    + apply r_ok. pis; auto.
  - intros [[s1 u1] b1] [[s1' u1'] b1'] [[H1 H2] H3]; cbn [fst snd] in *. subst. apply r_ok. now apply pr_i.
Qed.
Lemma r_state_while g : forall idx ps ps' s s' a a', el ps ps' -> srel s s' ->
  lrel (pr srel anyr) (bds_state_update_while_l p g idx ps s a) (bds_state_update_while_l p g idx ps' s' a').
Proof.
  induction g as [|g IH]; intros idx ps ps' s s' a a' Hp Hs; cbn [bds_state_update_while_l]; cbv zeta; rewrite <- !(sr_off _ _ Hs), <- ?(sr_lv _ _ Hs);
    (apply r_if; intros _; [apply r_ok; apply pr_i; [assumption|exact I]|]);
    (eapply r_bind; [apply r_rdc|intros l1 ? <-]); (eapply r_bind; [apply r_rdc|intros l2 ? <-]); (apply r_if; intros _; [apply r_ok; apply pr_i; [assumption|exact I]|]); [rl|].
  eapply r_bind; [apply r_rd; exact (ln_el _ _ _ (sr_stack _ _ Hs))|intros ? ? ?]. eapply r_bind; [apply r_place; eassumption|intros s1 s1' Hs1].
  apply r_if; intros _; [rl|]. os s1 s1' Hs1. rl. call2 r_thash_h. rl. apply IH; [assumption|]. ss.
Qed.
Lemma r_state_update s s' sd sd' ps ps' a a' : srel s s' -> el sd sd' -> el ps ps' -> lrel srel (bds_state_update_l p s sd ps a) (bds_state_update_l p s' sd' ps' a').
Proof.
  intros Hs Hd Hp. unfold bds_state_update_l. os s s' Hs. rl. rewrite Hthc. apply (r_bind f eq); [apply r_same|intros tc ? <-]. apply r_if; intros _; [rl|].
  leaf. rl. apply (r_bind f srel).
  - apply r_if; intros _; [|rl]. rl. match goal with H : threl ?t ?t' |- _ => ot t t' H end. rl. eapply r_bind; [eapply th_put; ss|intros ? ? [? ?]]. rl.
  - intros s1 s1' Hs1. eapply r_bind; [apply r_state_while; eassumption|]. intros [s2 ?] [s2' ?] [Hs2 _]; cbn [fst snd] in *. os s2 s2' Hs2. rl.
Qed.
Lemma r_round s s' l sd sd' ps ps' a a' : srel s s' -> el sd sd' -> el ps ps' -> lrel srel (bds_round_l p s l sd ps a) (bds_round_l p s' l sd' ps' a').
Proof.
  intros Hs Hd Hp. unfold bds_round_l. os s s' Hs. rl. rewrite Hthc. apply (r_bind f eq); [apply r_same|intros tc ? <-].
  apply (r_bind f el); [apply r_if; intros _; rl|]. intros bf bf' Hbf. apply (r_bind f srel); [apply r_if; intros _; rl|]. intros s1 s1' Hs1. os s1 s1' Hs1.
  apply r_if; intros _; cbv zeta.
  - leaf. rl.
  - call2 r_thash_h. rl. apply (r_bind f (ln (h * n))).
    + apply r_for; [|assumption]. intros i xx yy Hxy. apply r_if; intros _; rl. match goal with H : threl ?t ?t' |- _ => ot t t' H end. rl.
    + intros au au' Hau. rl. apply (r_bind f (fun a b => Forall2 threl a b /\ length a = thc)).
      * apply r_for; [|auto]. intros i xx yy [Hq1 Hq2]. rl. apply r_if; intros _; [|apply r_ok; auto]. rl. match goal with H : threl ?t ?t' |- _ => ot t t' H end. eapply th_put; ss.
      * intros ths1 ths1' [? ?]. rl.
Qed.
End Rel.
