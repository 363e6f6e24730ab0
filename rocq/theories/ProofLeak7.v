(** The API calls on keys that agree on their public bytes: the traces; histories. *)
From Verif Require Import Base Lib ModelUtils ModelParams ModelHash ModelWots ModelCommons ModelCore ModelCoreFast ModelXmss SpecRfc SpecParams SpecApi SpecFast ProofUtils ProofHash ProofCore ProofParams ProofApi ProofMain ProofFast3 ProofFast6 ModelLeak ModelLeakFast SpecLeak ProofLeak ProofLeak2 ProofLeak3 ProofLeak4 ProofLeak5 ProofLeak6.

Section Ref.
Context {E : Env} (f : event -> event).
Notation lrel := (lrel f).
Variables (p : xmss_params) (Hf : bytes -> bytes).
Hypothesis HH : hash_total p Hf.
Notation n := (p_n p).
Notation ib := (index_bytes p).
Notation RM := (public ib ++ secret (4 * n)).
Ltac rd1 := eapply r_bind; [apply r_rd; first [elt|eapply ag_el; eassumption|eapply ln_el; eassumption]|intros ? ? ?].
Ltac wr1 := eapply r_bind; [apply r_wr; elt|intros ? ? ?].
Lemma rm_seeds : skipn ib RM = secret (4 * n) ++ [].
Proof. rewrite app_nil_r. apply skipn_app_len, repeat_length. Qed.
Lemma rm_len : length RM = ib + 4 * n.
Proof. rewrite app_length. unfold public, secret. now rewrite !repeat_length. Qed.
Lemma rr_seed x y a l z z' : agree RM x y -> ln l z z' -> a + l <= 4 * n -> lrel (agree RM) (wr_l x (ib + a) z) (wr_l y (ib + a) z').
Proof. intros H Hz Ha. eapply r_wr_sec; eauto. exact rm_seeds. Qed.
Lemma rr_init x y z : ln (ib + 4 * n) x y -> length z = ib -> lrel (agree RM) (wr_l x 0 z) (wr_l y 0 z).
Proof.
  intros [X Y] Hz. split; [reflexivity|]. cbn [wr_l outcome]. unfold wr. rewrite X, Y, Hz. destruct (_ <=? _); [|exact I]. cbn [firstn app Nat.add].
  apply ag_app; [now apply ag_same_pub|]. apply ag_sec; rewrite skipn_length; lia.
Qed.
Lemma rr_keypair pk pk' sk sk' r r' : el pk pk' -> ln (ib + 4 * n) sk sk' ->
  lrel (pr (pr eq el) (agree RM)) (ref_xmssmt_core_keypair_l p pk sk r) (ref_xmssmt_core_keypair_l p pk' sk' r').
Proof.
  intros Hp Hk. unfold ref_xmssmt_core_keypair_l. cbv zeta.
  assert (He : el (rand_take r 0 (3 * n)) (rand_take r' 0 (3 * n))) by exact (ln_el _ _ _ (rand_ln r r' 0 (3 * n))).
  apply (r_bind f (pr (pr eq el) (agree RM))); [|intros [[x1 x2] x3] [[y1 y2] y3] [[A1 A2] A3]; cbn [fst snd] in *; apply r_ok; pis; auto].
  unfold xmssmt_core_seed_keypair_l. cbv zeta. eapply r_bind; [apply rr_init; [exact Hk|apply repeat_length]|intros k1 k1' K1].
  rd1. eapply r_bind; [rewrite <- (Nat.add_0_r ib); eapply rr_seed; [eassumption|eassumption|lia]|intros k2 k2' K2].
  rd1. eapply r_bind; [eapply rr_seed; [eassumption|eassumption|lia]|intros k3 k3' K3]. rd1. wr1. rd1. rd1.
  eapply r_bind; [eapply r_treehash; [exact HH|elt|elt|elt]|]. intros [rt u] [rt' u'] [Hrt _]; cbn [fst snd] in *.
  wr1. rd1. eapply r_bind; [eapply rr_seed; [eassumption|eassumption|lia]|intros k4 k4' K4]. apply r_ok. pis; auto.
Qed.

Definition rso_rel (x y : sign_out) : Prop := so_rc x = so_rc y /\ agree RM (so_sk x) (so_sk y) /\ el (so_sm x) (so_sm y) /\ so_smlen x = so_smlen y.
Lemma rso_i c k k' sm sm' l : agree RM k k' -> el sm sm' -> rso_rel (mkSign c k sm l) (mkSign c k' sm' l).
Proof. intros H1 H2. unfold rso_rel; cbn; auto. Qed.
Hypothesis Hc : forall t t', f (Chain t) = f (Chain t').
Lemma rr_body idx sk sk' sm sm' smlen mlen : agree RM sk sk' -> el sm sm' ->
  lrel rso_rel (ref_sign_body_l p idx sk sm smlen mlen) (ref_sign_body_l p idx sk' sm' smlen mlen).
Proof.
  intros Hk Hm. unfold ref_sign_body_l. cbv zeta. rd1. wr1. eapply r_bind; [apply r_wr_same; eassumption|intros k1 k1' K1].
  rd1. rd1. rd1. eapply r_bind; [apply r_rd; exact (ag_el _ _ _ K1)|intros ps ps' Hps]. eapply r_bind; [eapply r_prf; [eassumption|elt|elt]|intros R R' HR]. wr1.
  apply r_if; intros _; [apply r_ub|].
  eapply r_bind; [eapply r_hash_message; [eassumption|elt|elt|]|].
  - intros. eapply r_weaken; [apply r_rd; elt|intros; now apply ln_el with (k := p_n p)].
  - intros [h b] [h' b'] [Hh Hb]; cbn [fst snd] in *. cbv zeta. apply (r_bind f eq); [apply r_same|intros th ? <-].
    apply (r_bind f (pr (pr (pr (pr eq el) eq) el) anyr)).
    + apply r_for; [|elt]. intros j [[[[v1 v2] v3] v4] v5] [[[[u1 u2] u3] u4] u5] [[[[A1 A2] A3] A4] _]; cbn [fst snd] in *. subst u1 u3. cbv zeta.
      eapply r_bind; [eapply r_wsign; try eassumption; elt|]. intros [sg a1] [sg' a1'] [Hsg _]; cbn [fst snd] in *. wr1.
      eapply r_bind; [eapply r_treehash; [exact HH|elt|elt|elt]|]. intros [rt uu] [rt' uu'] [Hrt Huu]; cbn [fst snd] in *. apply r_ok. pis; try reflexivity; try exact I; elt.
    + intros [[[[v1 v2] v3] v4] v5] [[[[u1 u2] u3] u4] u5] [[[[A1 A2] A3] A4] _]; cbn [fst snd] in *. apply r_ok. now apply rso_i.
Qed.
Lemma rr_sign sk sk' sm sm' smlen m m' : agree RM sk sk' -> el sm sm' -> el m m' ->
  lrel rso_rel (ref_xmssmt_core_sign_l p sk sm smlen m) (ref_xmssmt_core_sign_l p sk' sm' smlen m').
Proof.
  intros Hk Hs Hm. unfold ref_xmssmt_core_sign_l. cbv zeta. rewrite <- Hm. wr1.
  apply (r_bind f eq); [apply (r_rd_pub f RM sk sk' 0 0 ib ib (secret (4 * n)) Hk eq_refl); lia|].
  intros ix ? <-. apply (r_bind f eq); [apply r_same|intros idx ? <-]. apply (r_bind f eq); [apply r_same|intros lim ? <-]. cbv zeta.
  apply r_if; intros _; [|now apply rr_body]. eapply r_bind; [apply r_wr_same; exact Hk|intros ? ? ?]. eapply r_bind; [apply r_wr_same; eassumption|intros ? ? ?].
  apply r_if; intros _; [apply r_ok; now apply rso_i|]. apply r_if; intros _; [apply r_ok; now apply rso_i|]. now apply rr_body.
Qed.
End Ref.

(** ** The wrappers *)
Section Api.
Context {E : Env} (f : event -> event).
Notation lrel := (lrel f).
Lemma r_okb' {A B} (Q : B -> B -> Prop) (c c' : res A) a k k' : c = Ok a -> c' = Ok a -> lrel Q (k a) (k' a) -> lrel Q (lbind (silent c) k) (lbind (silent c') k').
Proof. intros -> -> H. exact H. Qed.
Lemma kw_rel parse skb kp (p : xmss_params) (RK : bytes -> bytes -> Prop) (RK' : bytes -> bytes -> Prop) pk pk' sk sk' oid r r' :
  parse skb uninit_params oid = Ok (Some p) -> el pk pk' -> el sk sk' -> RK (skipn 4 sk) (skipn 4 sk') ->
  (forall a a' b b', el a a' -> RK b b' -> lrel (pr (pr eq el) RK') (kp p a b r) (kp p a' b' r')) ->
  lrel (pr (pr eq el) (fun x y => firstn 4 x = firstn 4 y /\ length (firstn 4 x) = 4 /\ firstn 4 x = oid_to_bytes oid /\ RK' (skipn 4 x) (skipn 4 y)))
    (keypair_wrapper_l parse skb kp pk sk oid r) (keypair_wrapper_l parse skb kp pk' sk' oid r').
Proof.
  intros Hp Hk Hs HR Hkp. unfold keypair_wrapper_l. eapply r_okb'; [exact Hp|exact Hp|]. eapply r_bind; [apply r_wr; [exact Hk|reflexivity]|intros pk1 pk1' Hpk1].
  apply (r_bind f (fun x y => firstn 4 x = oid_to_bytes oid /\ firstn 4 y = oid_to_bytes oid /\ RK (skipn 4 x) (skipn 4 y))).
  { split; [reflexivity|]. cbn [wr_l outcome]. unfold wr. rewrite Hs. destruct (Nat.leb_spec (0 + length (oid_to_bytes oid)) (length sk')) as [Hl|Hl]; [|exact I].
    cbn [firstn skipn app Nat.add oid_to_bytes length]. auto. }
  intros s1 s1' [S1 [S2 S3]]. eapply r_bind; [apply Hkp; [now apply el_skipn|exact S3]|]. intros [[c x] y] [[c' x'] y'] [[A1 A2] A3]; cbn [fst snd] in *. subst c'.
  apply r_ok. change XMSS_OID_LEN with 4. rewrite S1, S2. pis; [reflexivity|apply el_app; [now apply el_firstn|exact A2]|]. cbn [oid_to_bytes app firstn skipn length]. auto.
Qed.
Lemma sw_rel parse skb sg (p : xmss_params) oid (RK : bytes -> bytes -> Prop) sk sk' sm sm' smlen m m' :
  oid_of_bytes sk = Ok oid -> oid_of_bytes sk' = Ok oid -> parse skb uninit_params oid = Ok (Some p) -> el sm sm' -> el m m' ->
  firstn 4 sk = firstn 4 sk' -> length (firstn 4 sk) = 4 -> RK (skipn 4 sk) (skipn 4 sk') ->
  (forall a a', RK a a' -> lrel (fun x y => so_rc x = so_rc y /\ RK (so_sk x) (so_sk y) /\ el (so_sm x) (so_sm y) /\ so_smlen x = so_smlen y) (sg p a sm smlen m) (sg p a' sm' smlen m')) ->
  lrel (fun x y => so_rc x = so_rc y /\ (firstn 4 (so_sk x) = firstn 4 sk /\ firstn 4 (so_sk y) = firstn 4 sk /\ RK (skipn 4 (so_sk x)) (skipn 4 (so_sk y))) /\ el (so_sm x) (so_sm y) /\ so_smlen x = so_smlen y)
    (sign_wrapper_l parse skb sg sk sm smlen m) (sign_wrapper_l parse skb sg sk' sm' smlen m').
Proof.
  intros H1 H2 Hp Hs Hm H4 H4l HR Hsg. unfold sign_wrapper_l. eapply r_okb'; [exact H1|exact H2|]. eapply r_okb'; [exact Hp|exact Hp|].
  eapply r_bind; [apply Hsg; exact HR|]. intros o o' [A1 [A2 [A3 A4]]]. apply r_ok. cbn [so_rc so_sk so_sm so_smlen]. change XMSS_OID_LEN with 4. rewrite <- H4.
  rewrite !first_app, !skipn_app_len by exact H4l. auto.
Qed.
End Api.

(** ** Table rows *)
Section Rows.
Context {E : Env} (HE : env_ok E).
Variables (mt : bool) (r : row).
Hypothesis Hr : In r (rows mt).
Notation oid4 := (toByte (r_oid r) 4).

Definition rel_key (M : list bool) (x y : bytes) : Prop := agree (public 4 ++ M) x y /\ firstn 4 x = oid4.
Lemma rk_split M x y : rel_key M x y -> firstn 4 x = oid4 /\ firstn 4 y = oid4 /\ agree M (skipn 4 x) (skipn 4 y).
Proof.
  intros [H1 H2]. split; [exact H2|]. split; [rewrite <- H2; symmetry; eapply ag_first_eq; [exact H1|reflexivity]|].
  change M with (skipn 4 (public 4 ++ M)). now apply ag_skip.
Qed.
Lemma rk_join M x y : firstn 4 x = oid4 -> firstn 4 y = oid4 -> agree M (skipn 4 x) (skipn 4 y) -> rel_key M x y.
Proof.
  intros H1 H2 H3. split; [|exact H1]. rewrite <- (firstn_skipn 4 x), <- (firstn_skipn 4 y). rewrite H1, H2. apply ag_app; [|exact H3].
  apply ag_same_pub. apply toByte_length.
Qed.
Lemma rk_oid M x y : rel_key M x y -> oid_of_bytes x = Ok (r_oid r) /\ oid_of_bytes y = Ok (r_oid r).
Proof. intros H. destruct (rk_split _ _ _ H) as (H1 & H2 & _). rewrite <- (firstn_skipn 4 x), <- (firstn_skipn 4 y), H1, H2. now rewrite !(row_oid_bytes mt r _ Hr). Qed.

Definition out_rel (M : list bool) (x y : sign_out) : Prop := so_rc x = so_rc y /\ rel_key M (so_sk x) (so_sk y) /\ el (so_sm x) (so_sm y) /\ so_smlen x = so_smlen y.
Lemma sign_pair f parse skb sg p M sk sk' sm sm' smlen m m' :
  parse skb uninit_params (r_oid r) = Ok (Some p) -> el sm sm' -> el m m' -> rel_key M sk sk' ->
  (forall a a', agree M a a' -> lrel f (fun x y => so_rc x = so_rc y /\ agree M (so_sk x) (so_sk y) /\ el (so_sm x) (so_sm y) /\ so_smlen x = so_smlen y) (sg p a sm smlen m) (sg p a' sm' smlen m')) ->
  lrel f (out_rel M) (sign_wrapper_l parse skb sg sk sm smlen m) (sign_wrapper_l parse skb sg sk' sm' smlen m').
Proof.
  intros Hp Hs Hm Hk Hsg. destruct (rk_split _ _ _ Hk) as (K1 & K2 & K3), (rk_oid _ _ _ Hk) as (O1 & O2).
  eapply r_weaken; [eapply (sw_rel f parse skb sg p (r_oid r) (agree M)); eauto; [congruence|rewrite K1; apply toByte_length]|].
  intros x y [A1 [[A2 [A3 A4]] [A5 A6]]]. split; [exact A1|]. split; [apply rk_join; congruence || assumption|auto].
Qed.
Lemma hide_chain t t' : hide (Chain t) = hide (Chain t'). Proof. reflexivity. Qed.

Notation rp := (row_params r (sk_ref r)).
Lemma ref_pair sk sk' sm sm' smlen m m' : el sm sm' -> el m m' -> rel_key (public (idx_size r) ++ secret (4 * r_n r)) sk sk' ->
  lrel hide (out_rel (public (idx_size r) ++ secret (4 * r_n r))) (ref_sign_seen mt sk sm smlen m) (ref_sign_seen mt sk' sm' smlen m').
Proof.
  intros Hs Hm Hk. pose proof (parse_accept_ref mt r uninit_params Hr) as Hp. unfold ProofParams.parse_oid in Hp. eapply (sign_pair hide _ _ _ rp).
  - unfold ref_sign_seen. destruct mt; exact Hp.
  - exact Hs.
  - exact Hm.
  - exact Hk.
  - intros a a' Ha. pose proof (rr_sign hide rp (row_hash r) (row_hash_total mt r (sk_ref r) HE Hr) hide_chain a a' sm sm' smlen m m') as Q.
    unfold rso_rel in Q. rewrite (p_ib r) in Q. change (p_n rp) with (N.to_nat (N.of_nat (r_n r))) in Q. rewrite Nat2N.id in Q. apply Q; assumption.
Qed.
Notation RM := (public (idx_size r) ++ secret (4 * r_n r)).
Lemma ref_mask_eq : ref_mask r = public 4 ++ RM.
Proof. reflexivity. Qed.
Lemma ref_kp_pair f pk pk' sk sk' u u' : el pk pk' -> length sk = 4 + sk_size r -> length sk' = 4 + sk_size r ->
  lrel f (pr (pr eq el) (rel_key RM)) (ref_keypair_seen mt pk sk (r_oid r) u) (ref_keypair_seen mt pk' sk' (r_oid r) u').
Proof.
  intros Hp Hk Hk'. pose proof (parse_accept_ref mt r uninit_params Hr) as Hpo. unfold ProofParams.parse_oid in Hpo.
  eapply r_weaken; [eapply (kw_rel f _ _ _ rp (ln (sk_size r)) (agree RM))|].
  - unfold ref_keypair_seen. destruct mt; exact Hpo.
  - exact Hp.
  - unfold el. lia.
  - split; rewrite skipn_length; lia.
  - intros a a' b b' Ha Hb. pose proof (rr_keypair f rp (row_hash r) (row_hash_total mt r (sk_ref r) HE Hr) a a' b b' u u') as Q.
    rewrite (p_ib r) in Q. change (p_n rp) with (N.to_nat (N.of_nat (r_n r))) in Q. rewrite Nat2N.id in Q. apply Q; assumption.
  - intros [[c x] y] [[c' x'] y'] [[A1 A2] [A3 [A4 [A5 A6]]]]; cbn [fst snd] in *. pis; auto. rewrite oid_to_bytes_spec in A5. apply rk_join; congruence || assumption.
Qed.

Notation fp := (row_params r (sk_fast r)).
Notation FM := (core_mask (r_n r) (r_h r / r_d r) (r_d r) (idx_size r) (sp_len (row_sp r) * r_n r) 0 0).
Lemma fm_eq : core_mask (p_n fp) (tree_height fp) (p_d fp) (index_bytes fp) (wots_sig_bytes fp) (bds_k fp) 0 = FM.
Proof.
  rewrite (po_wsig _ (fp_ok mt r Hr)), (fp_len r), (fp_th r), (fp_ib r). change (bds_k fp) with 0. change (p_n fp) with (N.to_nat (N.of_nat (r_n r))). change (p_d fp) with (N.to_nat (N.of_nat (r_d r))).
  rewrite !Nat2N.id. reflexivity.
Qed.
Lemma f_thc : th_count fp = Ok (tree_height fp).
Proof. unfold th_count. pose proof (fp_kH mt r Hr) as H. change (bds_k fp) with 0 in *. destruct (Nat.ltb_spec 0 (tree_height fp)); [f_equal; lia|lia]. Qed.
Lemma f_rc : retain_count fp = Ok 0.
Proof. reflexivity. Qed.
Lemma f_xmss_ib : mt = false -> index_bytes fp = 4.
Proof.
  intros ->. rewrite (fp_ib r). clear -Hr. revert r Hr. apply (proj1 (Forall_forall (fun r => idx_size r = 4) (rows false))). vm_compute. repeat constructor.
Qed.
Lemma fast_pair sk sk' sm sm' smlen m m' : el sm sm' -> el m m' -> rel_key FM sk sk' ->
  lrel hide (out_rel FM) (fast_sign_seen mt sk sm smlen m) (fast_sign_seen mt sk' sm' smlen m').
Proof.
  intros Hs Hm Hk. pose proof (parse_accept_fast mt r uninit_params Hr) as Hp. unfold ProofParams.parse_oid in Hp. eapply (sign_pair hide _ _ _ fp).
  - unfold fast_sign_seen. destruct mt; exact Hp.
  - exact Hs.
  - exact Hm.
  - exact Hk.
  - intros a a' Ha. rewrite <- fm_eq in Ha |- *. pose proof (row_hash_total mt r (sk_fast r) HE Hr) as HT. pose proof f_thc as Htc. pose proof f_xmss_ib as Hx. destruct mt eqn:Emt.
    + exact (r_mt_sign hide fp (row_hash r) HT _ _ Htc f_rc hide_chain a a' sm sm' smlen m m' Ha Hs Hm).
    + exact (r_fast_sign hide fp (row_hash r) HT _ _ Htc f_rc hide_chain a a' sm sm' smlen m m' (Hx eq_refl) Ha Hs Hm).
Qed.
Lemma fast_kp_pair pk pk' sk sk' u u' : el pk pk' -> agree FM (skipn 4 sk) (skipn 4 sk') -> el sk sk' ->
  lrel hide (pr (pr eq el) (rel_key FM)) (fast_keypair_seen mt pk sk (r_oid r) u) (fast_keypair_seen mt pk' sk' (r_oid r) u').
Proof.
  intros Hp Hk He. pose proof (parse_accept_fast mt r uninit_params Hr) as Hpo. unfold ProofParams.parse_oid in Hpo.
  eapply r_weaken; [eapply (kw_rel hide _ _ _ fp (agree FM) (agree FM))|].
  - unfold fast_keypair_seen. destruct mt; exact Hpo.
  - exact Hp.
  - exact He.
  - exact Hk.
  - intros a a' b b' Ha Hb. rewrite <- fm_eq in Hb |- *. pose proof (row_hash_total mt r (sk_fast r) HE Hr) as HT. pose proof f_thc as Htc. destruct mt eqn:Emt.
    + exact (r_fast_mt_keypair hide fp (row_hash r) HT _ _ Htc f_rc hide_chain a a' b b' u u' Ha Hb).
    + exact (r_fast_keypair hide fp (row_hash r) HT _ _ Htc f_rc a a' b b' u u' Ha Hb).
  - intros [[c x] y] [[c' x'] y'] [[A1 A2] [A3 [A4 [A5 A6]]]]; cbn [fst snd] in *. pis; auto. rewrite oid_to_bytes_spec in A5. apply rk_join; congruence || assumption.
Qed.

(** ** Histories *)
Lemma watch_pair M sg : (forall sk sk' sm sm' smlen m m', el sm sm' -> el m m' -> rel_key M sk sk' -> lrel hide (out_rel M) (sg sk sm smlen m) (sg sk' sm' smlen m')) ->
  forall cs cs', Forall2 same_shape cs cs' -> forall sk sk', rel_key M sk sk' -> map (map hide) (watch sg sk cs) = map (map hide) (watch sg sk' cs').
Proof.
  intros Hsg cs cs' H. induction H as [|c c' cs cs' [C1 [C2 C3]] Hcs IH]; intros sk sk' Hk; [reflexivity|]. cbn [watch map]. rewrite <- C3.
  destruct (Hsg sk sk' (c_sm c) (c_sm c') (c_smlen c) (c_m c) (c_m c') C2 C1 Hk) as [H1 H2]. rewrite H1. f_equal.
  destruct (outcome (sg sk (c_sm c) (c_smlen c) (c_m c))) as [o| |], (outcome (sg sk' (c_sm c') (c_smlen c) (c_m c'))) as [o'| |]; try contradiction; try reflexivity.
  destruct H2 as [_ [H3 _]]. now apply IH.
Qed.
End Rows.
