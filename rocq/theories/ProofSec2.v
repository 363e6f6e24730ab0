(** From the reductions of ProofSec to the public functions; domain separation; addresses. *)
From Verif Require Import Base Lib ModelUtils ModelParams ModelHash ModelWots ModelCommons ModelCore ModelXmss SpecRfc SpecParams SpecApi SpecComp SpecSec
  ProofUtils ProofHash ProofWots ProofParams ProofApi ProofHistory ProofMain ProofComp ProofComp2 ProofUi2 ProofSec.

(** *** Facts about a parameter choice *)
Section Custom.
Context {E : Env}.
Hypothesis HE : env_ok E.
Variable c : custom.
Hypothesis Hc : custom_ok c.
Notation P := (custom_sp c).

Lemma some_configured : exists p, configured c p.
Proof.
  pose (p0 := mkParams (fn_code (cu_fn c)) (N.of_nat (cu_n c)) (N.of_nat (cu_pad c)) (N.of_nat (2 ^ cu_lgw c)) 0 0 0 0 0 (N.of_nat (cu_h c)) 0 (N.of_nat (cu_d c)) 0 0 0 0 0).
  assert (Hi : inputs c p0) by (repeat split).
  eexists. exists p0. split; [exact Hi|]. left. apply (init_cp c Hc ref_core_sk_bytes p0 Hi).
Qed.
Lemma c_hash_n x : length (sp_hash P x) = sp_n P /\ bytes_ok (sp_hash P x).
Proof. destruct some_configured as [p Hp]. destruct (conf_hash c p HE Hc Hp x) as [_ [H1 H2]]. rewrite (conf_n c p HE Hc Hp) in H1. now split. Qed.
Lemma c_undominated : cu_lgw c <> 8 -> undominated P.
Proof.
  intros Hw M1 M2 L1 B1 L2 B2 Hne. destruct some_configured as [p Hp].
  destruct (lengths_ok c p HE Hc Hp M1 L1 B1) as [l1 [E1 [D1 _]]]. destruct (lengths_ok c p HE Hc Hp M2 L2 B2) as [l2 [E2 [D2 _]]].
  subst l1 l2. exact (no_domination c p HE Hc Hp M1 M2 _ _ Hw L1 B1 L2 B2 Hne E1 E2).
Qed.
Lemma c_digits M i : nth i (wots_digits P M) 0 <= sp_w P - 1.
Proof.
  destruct some_configured as [p Hp]. pose proof (wots_digits_lt p (hash_of (cu_fn c) (cu_n c)) (conf_params c p HE Hc Hp) M i) as H.
  rewrite (conf_sp c p HE Hc Hp) in H. rewrite <- (sp_w_of p (hash_of (cu_fn c) (cu_n c)) (conf_params c p HE Hc Hp)), (conf_sp c p HE Hc Hp) in H. exact H.
Qed.
Lemma c_len : 1 <= sp_len P.
Proof. unfold sp_len. pose proof (c_len2_le c Hc). change (sp_len2 P) with (sp_len2 (custom_sp (E := {| sha256 := fun _ => []; sha512 := fun _ => []; junk := fun _ => 0%N |}) c)). lia. Qed.
Lemma c_th : 1 <= sp_th P <= 30.
Proof. exact (proj1 (proj2 (proj2 (proj2 (proj2 (proj2 Hc)))))). Qed.
End Custom.

Lemma rows_custom_ok mt r : In r (rows mt) -> custom_ok (row_custom r).
Proof. intros Hr. apply (standard_configured mt r (row_params r 0) (row_params r (sk_ref r)) Hr). left. apply parse_accept_ref. exact Hr. Qed.

(** *** Two accepted signatures *)
Lemma two_signatures P rt seed sig1 sig2 m1 m2 :
  (forall x, length (sp_hash P x) = sp_n P /\ bytes_ok (sp_hash P x)) -> undominated P -> (forall M i, nth i (wots_digits P M) 0 <= sp_w P - 1) ->
  1 <= sp_len P -> 1 <= sp_th P -> length sig1 = sp_sig_bytes P -> length sig2 = sp_sig_bytes P ->
  mt_verify P rt seed sig1 m1 = true -> mt_verify P rt seed sig2 m2 = true -> sig_index P sig1 = sig_index P sig2 -> sig1 <> sig2 \/ m1 <> m2 -> (forall s, length s = sp_sig_bytes P -> s = sig1 \/ s = sig2 -> bytes_ok s) ->
  let q1 := verify_queries P seed rt sig1 m1 in let q2 := verify_queries P seed rt sig2 m2 in
  collision P seed q1 q2 \/ preimage P seed rt sig1 m1 q1 q2.
Proof.
  intros Hn HD Hdig Hlen Hth L1 L2 V1 V2 Hi Hne Hbo q1 q2.
  unfold mt_verify in V1, V2. cbv zeta in V1, V2. fold (sig_index P sig1) (sig_index P sig2) (sig_R P sig1) (sig_R P sig2) (sig_layers P sig1) (sig_layers P sig2) in V1, V2.
  set (M1 := H_msg P (sig_R P sig1) rt (sig_index P sig1) m1) in *. set (M2 := H_msg P (sig_R P sig2) rt (sig_index P sig2) m2) in *.
  destruct (list_eq_dec N.eq_dec (mt_climb P seed (sig_index P sig1) M1 0 (sp_d P) (sig_layers P sig1)) rt) as [W1|]; [|discriminate].
  destruct (list_eq_dec N.eq_dec (mt_climb P seed (sig_index P sig2) M2 0 (sp_d P) (sig_layers P sig2)) rt) as [W2|]; [|discriminate].
  destruct (list_eq_dec N.eq_dec M1 M2) as [HM|HM].
  - destruct (list_eq_dec N.eq_dec m1 m2) as [Em|Em]; [destruct (list_eq_dec N.eq_dec (sig_R P sig1) (sig_R P sig2)) as [ER|ER]|];
      [|left; unfold q1, q2, verify_queries; apply coll_here; [|reflexivity|exact HM|exact I]; intros He; injection He as He1 _ He2; now apply ER
       |left; unfold q1, q2, verify_queries; apply coll_here; [|reflexivity|exact HM|exact I]; intros He; injection He as _ _ He2; now apply Em].
    destruct Hne as [Hne|Hne]; [|now destruct (Hne Em)].
    assert (Hly : sig_layers P sig1 <> sig_layers P sig2).
    { intros Hl. apply Hne. rewrite <- (firstn_skipn (sp_ib P + sp_n P) sig1), <- (firstn_skipn (sp_ib P + sp_n P) sig2). unfold sig_layers in Hl. rewrite Hl. f_equal.
      unfold sp_sig_bytes in L1, L2.
      rewrite <- (firstn_skipn (sp_ib P) (firstn (sp_ib P + sp_n P) sig1)), <- (firstn_skipn (sp_ib P) (firstn (sp_ib P + sp_n P) sig2)).
      rewrite !firstn_firstn, Nat.min_l by lia. f_equal.
      - unfold sig_index in Hi. apply os2ip_inj; [now rewrite !firstn_length_le by lia|apply bytes_ok_firstn, Hbo; auto|apply bytes_ok_firstn, Hbo; auto|exact Hi].
      - rewrite !skipn_firstn_comm. replace (sp_ib P + sp_n P - sp_ib P) with (sp_n P) by lia. exact ER. }
    assert (W : mt_climb P seed (sig_index P sig1) M1 0 (sp_d P) (sig_layers P sig1) = mt_climb P seed (sig_index P sig1) M1 0 (sp_d P) (sig_layers P sig2)) by (rewrite Hi, HM in *; congruence).
    unfold sp_sig_bytes in L1, L2. rewrite <- Nat.add_assoc in L1, L2.
    apply mt_other in W; [|assumption|assumption|assumption|assumption|assumption|apply Hn|apply Hn|exact Hly|unfold sig_layers; rewrite skipn_length; lia|unfold sig_layers; rewrite skipn_length; lia].
    destruct W as [W|[j [c [s [x [Hj [Hc [H1 [H2 [H3 H4]]]]]]]]]].
    + left. revert W. apply coll_mono; [apply incl_tl, incl_refl|]. unfold q2, verify_queries. fold M2. rewrite Hi, HM. apply incl_tl, incl_refl.
    + right. exists j, c, s, x. split; [exact Hj|]. split; [exact Hc|]. cbn [Nat.add] in *. cbv zeta in *.
      split; [right; fold M2; rewrite <- Hi, <- HM; exact H1|]. split.
      * intros y [Hy|Hy]; [discriminate|]. exact (H2 y Hy).
      * split; [exact H3|exact H4].
  - assert (W : mt_climb P seed (sig_index P sig1) M1 0 (sp_d P) (sig_layers P sig1) = mt_climb P seed (sig_index P sig1) M2 0 (sp_d P) (sig_layers P sig2)) by (rewrite Hi in *; congruence).
    unfold sp_sig_bytes in L1, L2. rewrite <- Nat.add_assoc in L1, L2.
    apply mt_break in W; [|assumption|assumption|assumption|assumption|assumption|apply Hn|apply Hn|apply Hn|apply Hn|exact HM|unfold sig_layers; rewrite skipn_length; lia|unfold sig_layers; rewrite skipn_length; lia].
    destruct W as [W|[j [c [s [x [Hj [Hc [H1 [H2 [H3 H4]]]]]]]]]].
    + left. revert W. apply coll_mono; [apply incl_tl, incl_refl|]. unfold q2, verify_queries. fold M2. rewrite Hi. apply incl_tl, incl_refl.
    + right. exists j, c, s, x. split; [exact Hj|]. split; [exact Hc|]. cbn [Nat.add] in *. cbv zeta in *.
      split; [right; fold M2; rewrite <- Hi; exact H1|]. split.
      * intros y [Hy|Hy]; [discriminate|]. exact (H2 y Hy).
      * split; [exact H3|exact H4].
Qed.

Section Api.
Context {E : Env}.
Hypothesis HE : env_ok E.
Variables (mt : bool) (r : row).
Hypothesis Hr : In r (rows mt).
Notation P := (row_sp r).

Lemma accepted c mbuf mlen sm pk o : a_core c -> key_of r (pk_size r) pk -> sig_size r <= length sm -> bytes_ok sm -> length sm <= length mbuf ->
  sign_open mt c mbuf mlen sm pk = Ok o -> oo_rc o = 0%Z ->
  mt_verify P (firstn (r_n r) (skipn 4 pk)) (skipn (4 + r_n r) pk) (firstn (sig_size r) sm) (skipn (sig_size r) sm) = true.
Proof.
  intros Hc Hk Hl Hb Hm Ho Hrc. destruct (open_decides HE mt r c mbuf mlen sm pk Hr Hc Hk Hl Hb Hm) as [o' [Ho' [_ [_ [Hf _]]]]].
  rewrite Ho in Ho'. injection Ho' as <-. destruct (mt_verify _ _ _ _ _); [reflexivity|]. destruct (Hf eq_refl) as [Hx _]. rewrite Hrc in Hx. discriminate.
Qed.

Lemma two_openings c1 c2 mb1 mb2 l1 l2 sm1 sm2 pk o1 o2 : a_core c1 -> a_core c2 -> key_of r (pk_size r) pk ->
  sig_size r <= length sm1 -> sig_size r <= length sm2 -> bytes_ok sm1 -> bytes_ok sm2 -> length sm1 <= length mb1 -> length sm2 <= length mb2 ->
  sign_open mt c1 mb1 l1 sm1 pk = Ok o1 -> oo_rc o1 = 0%Z -> sign_open mt c2 mb2 l2 sm2 pk = Ok o2 -> oo_rc o2 = 0%Z ->
  sm_index r sm1 = sm_index r sm2 -> sm1 <> sm2 ->
  let rt := firstn (r_n r) (skipn 4 pk) in let seed := skipn (4 + r_n r) pk in
  let sig1 := firstn (sig_size r) sm1 in let m1 := skipn (sig_size r) sm1 in
  let sig2 := firstn (sig_size r) sm2 in let m2 := skipn (sig_size r) sm2 in
  let q1 := verify_queries P seed rt sig1 m1 in let q2 := verify_queries P seed rt sig2 m2 in
  collision P seed q1 q2 \/ preimage P seed rt sig1 m1 q1 q2.
Proof.
  intros Hc1 Hc2 Hk L1 L2 B1 B2 G1 G2 O1 R1 O2 R2 Hi Hne.
  pose proof (rows_custom_ok mt r Hr) as Hcu.
  assert (Hs : idx_size r <= sig_size r) by (unfold sig_size, sp_sig_bytes, idx_size; lia).
  apply two_signatures.
  - exact (c_hash_n HE (row_custom r) Hcu).
  - apply (c_undominated HE (row_custom r) Hcu). discriminate.
  - exact (c_digits HE (row_custom r) Hcu).
  - exact (c_len (row_custom r) Hcu).
  - exact (proj1 (c_th (row_custom r) Hcu)).
  - rewrite firstn_length. unfold sig_size in *. lia.
  - rewrite firstn_length. unfold sig_size in *. lia.
  - eapply accepted; [exact Hc1|eassumption..].
  - eapply accepted; [exact Hc2|eassumption..].
  - unfold sig_index. rewrite !firstn_firstn. fold (idx_size r). rewrite Nat.min_l by exact Hs. exact Hi.
  - destruct (list_eq_dec N.eq_dec (firstn (sig_size r) sm1) (firstn (sig_size r) sm2)) as [He|He]; [right|now left].
    intros He2. apply Hne. rewrite <- (firstn_skipn (sig_size r) sm1), <- (firstn_skipn (sig_size r) sm2), He, He2. reflexivity.
  - intros s _ [->| ->]; now apply bytes_ok_firstn.
Qed.

Lemma forgery rnd pk0 sk0 cs pk sk sk' os k x o c mbuf mlen sm of_ : (forall i, (rnd i < 256)%N) ->
  length pk0 = 4 + pk_size r -> length sk0 = 4 + sk_size r ->
  keypair mt ref_core pk0 sk0 (r_oid r) rnd = Ok (0%Z, pk, sk) ->
  (N.of_nat (length cs) < 2 ^ N.of_nat (r_h r))%N -> Forall (call_ok r) cs -> Forall (fun q => bytes_ok (c_m q)) cs ->
  sign_run mt ref_core sk cs = Ok (sk', os) -> nth_error cs k = Some x -> nth_error os k = Some o ->
  a_core c -> sig_size r <= length sm -> bytes_ok sm -> length sm <= length mbuf ->
  sign_open mt c mbuf mlen sm pk = Ok of_ -> oo_rc of_ = 0%Z ->
  sm_index r sm = N.of_nat k -> sm <> signed_message o ->
  let rt := firstn (r_n r) (skipn 4 pk) in let seed := skipn (4 + r_n r) pk in
  let hsig := firstn (sig_size r) (signed_message o) in
  let honest := verify_queries P seed rt hsig (c_m x) in
  let forged := verify_queries P seed rt (firstn (sig_size r) sm) (skipn (sig_size r) sm) in
  collision P seed honest forged \/ preimage P seed rt hsig (c_m x) honest forged.
Proof.
  intros Hb Lp Ls Hkp Hn Hok Hbm Hrun Hx Ho Hc Lsm Bsm Lmb Hop Hrc Hi Hne.
  destruct (keypair_exact HE mt r pk0 sk0 rnd Hr Hb Lp Ls) as [a [b [ct [d [Hf [Hct [_ Hkp']]]]]]].
  rewrite Hkp in Hkp'. injection Hkp' as -> ->.
  destruct (run_live HE mt r a b ct d Hr Hf cs 0) as [os' [Hrun' [Hlen Hnth]]]; [lia|exact Hok|].
  rewrite Hrun in Hrun'. injection Hrun' as _ <-. specialize (Hnth k x Hx). rewrite Ho in Hnth. injection Hnth as ->.
  assert (Hk : k < length cs) by (apply nth_error_Some; rewrite Hx; discriminate).
  assert (Lsg : length (mt_sign P a b ct d (N.of_nat k) (c_m x)) = sig_size r) by (apply (mt_sign_len HE mt r Hr)).
  assert (Bx : bytes_ok (c_m x)) by (rewrite Forall_forall in Hbm; apply (Hbm x), (nth_error_In _ _ Hx)).
  assert (Hsm : forall z, signed_message (mkSign 0 z (mt_sign P a b ct d (N.of_nat k) (c_m x) ++ c_m x ++ skipn (sig_size r + length (c_m x)) (c_sm x)) (sig_size r + length (c_m x)))
     = mt_sign P a b ct d (N.of_nat k) (c_m x) ++ c_m x).
  { intros z. unfold signed_message. cbn [so_smlen so_sm]. rewrite app_assoc. rewrite firstn_app, firstn_all2 by (rewrite app_length; lia).
    replace (sig_size r + length (c_m x) - length (mt_sign P a b ct d (N.of_nat k) (c_m x) ++ c_m x)) with 0 by (rewrite app_length; lia). apply app_nil_r. }
  cbv zeta. rewrite !Hsm in *.
  set (sg := mt_sign P a b ct d (N.of_nat k) (c_m x)) in *.
  destruct (honest_opens HE mt r Hr a b ct d Hf Hct c (N.of_nat k) (c_m x) (repeat 0%N (sig_size r + length (c_m x))) 0) as [oo [Hoo [Hoc _]]]; [exact Hc|lia|exact Bx|rewrite repeat_length; lia|].
  fold sg in Hoo.
  assert (Hsk : skipn (sig_size r) (sg ++ c_m x) = c_m x) by (rewrite skipn_app, skipn_all2, Lsg, Nat.sub_diag by lia; reflexivity).
  pose proof (two_openings c c (repeat 0%N (sig_size r + length (c_m x))) mbuf 0 mlen (sg ++ c_m x) sm (public_key r ct d) oo of_ Hc Hc) as H.
  cbv zeta in H. rewrite Hsk in H. apply H; clear H.
  - apply (pk_is_key r a b ct d Hf).
  - rewrite app_length. lia.
  - exact Lsm.
  - apply Forall_app. split; [apply (mt_sign_bytes HE mt r Hr)|exact Bx].
  - exact Bsm.
  - rewrite repeat_length, app_length. lia.
  - exact Lmb.
  - exact Hoo.
  - exact Hoc.
  - exact Hop.
  - exact Hrc.
  - rewrite Hi. unfold sm_index. assert (Hs : idx_size r <= sig_size r) by (unfold sig_size, sp_sig_bytes, idx_size; lia).
    rewrite firstn_app, (proj2 (Nat.sub_0_le (idx_size r) (length sg))) by lia. cbn [firstn]. rewrite app_nil_r.
    unfold sg, mt_sign. cbv zeta. rewrite firstn_app, toByte_length. fold (idx_size r). rewrite Nat.sub_diag. cbn [firstn]. rewrite app_nil_r, firstn_all2 by (rewrite toByte_length; lia).
    rewrite os2ip_toByte. apply N.mod_small. pose proof (idx_size_le mt r Hr) as [_ Hh]. rewrite pow256_pow2.
    eapply N.lt_le_trans; [|apply N.pow_le_mono_r with (b := N.of_nat (r_h r)); lia]. lia.
  - congruence.
Qed.
End Api.

(** *** Binding *)
Section Bind.
Variable P : sparams.
Hypothesis Hn : forall x, length (sp_hash P x) = sp_n P /\ bytes_ok (sp_hash P x).
Hypothesis Hlen : 1 <= sp_len P.
Variable seed : bytes.
Notation sz := ((sp_len P + sp_th P) * sp_n P).
Notation step idx k M s := (rootFromSig P seed (N.of_nat k) (tree_of P idx k) (leaf_of P idx k) M (pieces P (sp_len P) s)
                  (pieces P (sp_th P) (skipn (sp_len P * sp_n P) s))).
Lemma mt_climb_snoc idx : forall cnt M k s, mt_climb P seed idx M k (S cnt) s =
  step idx (k + cnt) (mt_climb P seed idx M k cnt s) (skipn (cnt * sz) s).
Proof.
  induction cnt as [|cnt IH]; intros M k s.
  - cbn [mt_climb Nat.mul]. change (skipn 0 s) with s. rewrite Nat.add_0_r. reflexivity.
  - cbn [mt_climb] in IH |- *. cbv zeta in IH |- *. rewrite IH. rewrite Nat.add_succ_comm. rewrite skipn_skipn.
    replace (cnt * sz + sz) with (S cnt * sz) by (cbn [Nat.mul]; lia). reflexivity.
Qed.
Lemma layer_queries_in idx : forall cnt M k s j, j < cnt ->
  incl (root_queries P seed (N.of_nat (k + j)) (tree_of P idx (k + j)) (leaf_of P idx (k + j)) (mt_climb P seed idx M k j s)
          (pieces P (sp_len P) (skipn (j * sz) s)) (pieces P (sp_th P) (skipn (sp_len P * sp_n P) (skipn (j * sz) s))))
       (layer_queries P seed idx M k cnt s).
Proof.
  induction cnt as [|cnt IH]; intros M k s j Hj; [lia|]. cbn [layer_queries]. cbv zeta. destruct j as [|j].
  - cbn [mt_climb Nat.mul]. change (skipn 0 s) with s. rewrite Nat.add_0_r. apply incl_appl, incl_refl.
  - apply incl_appr. cbn [mt_climb]. cbv zeta. rewrite <- Nat.add_succ_comm.
    replace (skipn (S j * sz) s) with (skipn (j * sz) (skipn sz s)) by (rewrite skipn_skipn; f_equal; cbn [Nat.mul]; lia).
    apply IH. lia.
Qed.
Lemma layer_binding rt sig1 sig2 m1 m2 k : k < sp_d P -> length sig1 = sp_sig_bytes P -> length sig2 = sp_sig_bytes P ->
  sig_index P sig1 = sig_index P sig2 -> signed_at P seed rt sig1 m1 (S k) = signed_at P seed rt sig2 m2 (S k) ->
  layer_pk P seed rt sig1 m1 k = layer_pk P seed rt sig2 m2 k \/
  collision P seed (verify_queries P seed rt sig1 m1) (verify_queries P seed rt sig2 m2).
Proof.
  intros Hk L1 L2 Hi. unfold signed_at. rewrite !mt_climb_snoc. cbn [Nat.add].
  set (M1 := H_msg P (sig_R P sig1) rt (sig_index P sig1) m1). set (M2 := H_msg P (sig_R P sig2) rt (sig_index P sig2) m2).
  unfold layer_pk, signed_at. fold M1 M2.
  assert (I1 := layer_queries_in (sig_index P sig1) (sp_d P) M1 0 (sig_layers P sig1) k Hk).
  assert (I2 := layer_queries_in (sig_index P sig2) (sp_d P) M2 0 (sig_layers P sig2) k Hk).
  cbn [Nat.add] in I1, I2. rewrite Hi in I1 |- *.
  assert (Hsz : k * sz + sz <= sp_d P * sz) by (replace (k * sz + sz) with ((k + 1) * sz) by lia; apply Nat.mul_le_mono_r; lia).
  assert (Hsz2 : sp_len P * sp_n P + sp_th P * sp_n P = sz) by lia.
  unfold sp_sig_bytes in L1, L2. rewrite <- Nat.add_assoc in L1, L2.
  assert (K1 : sz <= length (skipn (k * sz) (sig_layers P sig1))) by (unfold sig_layers; rewrite !skipn_length; lia).
  assert (K2 : sz <= length (skipn (k * sz) (sig_layers P sig2))) by (unfold sig_layers; rewrite !skipn_length; lia).
  set (s1 := skipn (k * sz) (sig_layers P sig1)) in *. set (s2 := skipn (k * sz) (sig_layers P sig2)) in *.
  unfold rootFromSig, root_queries in *. cbv zeta in I1, I2.
  intros H.
  destruct (pieces_n P Hn (sp_len P) s1) as [F1 E1]; [lia|]. destruct (pieces_n P Hn (sp_len P) s2) as [F2 E2]; [lia|].
  destruct (pieces_n P Hn (sp_th P) (skipn (sp_len P * sp_n P) s1)) as [G1 A1]; [rewrite skipn_length; lia|].
  destruct (pieces_n P Hn (sp_th P) (skipn (sp_len P * sp_n P) s2)) as [G2 A2]; [rewrite skipn_length; lia|].
  match type of H with climb _ _ _ _ (ltree _ _ _ _ _ _ _ ?x) _ _ _ = climb _ _ _ _ (ltree _ _ _ _ _ _ _ ?y) _ _ _ => set (pk1 := x) in *; set (pk2 := y) in * end.
  assert (Q1 : Forall (fun x => length x = sp_n P) pk1 /\ length pk1 = sp_len P) by (apply (pk_n P Hn); assumption).
  assert (Q2 : Forall (fun x => length x = sp_n P) pk2 /\ length pk2 = sp_len P) by (apply (pk_n P Hn); assumption).
  destruct Q1 as [Q1 Q1']. destruct Q2 as [Q2 Q2'].
  unfold verify_queries. rewrite Hi.
  apply (climb_bind P Hn) in H; [|congruence|assumption|assumption|apply (ltree_n P Hn); [lia|assumption]|apply (ltree_n P Hn); [lia|assumption]].
  destruct H as [H|H].
  - apply (ltree_bind P Hn) in H; [|lia|lia|assumption|assumption]. destruct H as [H|H]; [now left|right].
    revert H. apply coll_mono.
    + intros q Hq. right. unfold M1 in I1. rewrite Hi in I1. apply I1. apply in_app_iff. right. apply in_app_iff. now left.
    + intros q Hq. right. apply I2. apply in_app_iff. right. apply in_app_iff. now left.
  - right. revert H. apply coll_mono.
    + intros q Hq. right. unfold M1 in I1. rewrite Hi in I1. apply I1. apply in_app_iff. right. apply in_app_iff. now right.
    + intros q Hq. right. apply I2. apply in_app_iff. right. apply in_app_iff. now right.
Qed.
End Bind.

Lemma top_binding {E : Env} (HE : env_ok E) mt r c1 c2 mb1 mb2 l1 l2 sm1 sm2 pk o1 o2 : In r (rows mt) -> a_core c1 -> a_core c2 -> key_of r (pk_size r) pk ->
  sig_size r <= length sm1 -> sig_size r <= length sm2 -> bytes_ok sm1 -> bytes_ok sm2 -> length sm1 <= length mb1 -> length sm2 <= length mb2 ->
  sign_open mt c1 mb1 l1 sm1 pk = Ok o1 -> oo_rc o1 = 0%Z -> sign_open mt c2 mb2 l2 sm2 pk = Ok o2 -> oo_rc o2 = 0%Z ->
  sm_index r sm1 = sm_index r sm2 ->
  let P := row_sp r in
  let rt := firstn (r_n r) (skipn 4 pk) in let seed := skipn (4 + r_n r) pk in
  let sig1 := firstn (sig_size r) sm1 in let m1 := skipn (sig_size r) sm1 in
  let sig2 := firstn (sig_size r) sm2 in let m2 := skipn (sig_size r) sm2 in
  (layer_pk P seed rt sig1 m1 (r_d r - 1) = layer_pk P seed rt sig2 m2 (r_d r - 1) \/
   collision P seed (verify_queries P seed rt sig1 m1) (verify_queries P seed rt sig2 m2)) /\
  (forall k, S k < r_d r -> signed_at P seed rt sig1 m1 (S k) = signed_at P seed rt sig2 m2 (S k) ->
   layer_pk P seed rt sig1 m1 k = layer_pk P seed rt sig2 m2 k \/
   collision P seed (verify_queries P seed rt sig1 m1) (verify_queries P seed rt sig2 m2)).
Proof.
  intros Hr Hc1 Hc2 Hk L1 L2 B1 B2 G1 G2 O1 R1 O2 R2 Hi P rt seed sig1 m1 sig2 m2.
  pose proof (rows_custom_ok mt r Hr) as Hcu.
  assert (Hs : idx_size r <= sig_size r) by (unfold sig_size, sp_sig_bytes, idx_size; lia).
  assert (Hb : forall k, k < r_d r -> signed_at P seed rt sig1 m1 (S k) = signed_at P seed rt sig2 m2 (S k) ->
   layer_pk P seed rt sig1 m1 k = layer_pk P seed rt sig2 m2 k \/
   collision P seed (verify_queries P seed rt sig1 m1) (verify_queries P seed rt sig2 m2)).
  { intros k Hkd. apply layer_binding.
    - exact (c_hash_n HE (row_custom r) Hcu).
    - exact (c_len (row_custom r) Hcu).
    - exact Hkd.
    - unfold sig1. rewrite firstn_length. unfold sig_size in *. unfold P. lia.
    - unfold sig2. rewrite firstn_length. unfold sig_size in *. unfold P. lia.
    - unfold sig_index, sig1, sig2. rewrite !firstn_firstn. fold (idx_size r). unfold P. rewrite Nat.min_l by exact Hs. exact Hi. }
  assert (Hd : 1 <= r_d r) by exact (proj1 (proj2 (proj2 (proj2 Hcu)))).
  split; [|intros k Hkd; apply Hb; lia]. apply Hb; [lia|]. replace (S (r_d r - 1)) with (r_d r) by lia.
  pose proof (accepted HE mt r Hr c1 mb1 l1 sm1 pk o1 Hc1 Hk L1 B1 G1 O1 R1) as V1.
  pose proof (accepted HE mt r Hr c2 mb2 l2 sm2 pk o2 Hc2 Hk L2 B2 G2 O2 R2) as V2.
  unfold mt_verify in V1, V2. cbv zeta in V1, V2.
  destruct (list_eq_dec N.eq_dec _ _) as [W1|] in V1; [|discriminate]. destruct (list_eq_dec N.eq_dec _ _) as [W2|] in V2; [|discriminate].
  transitivity rt; [exact W1|symmetry; exact W2].
Qed.

Section CodeBind.
Context {E : Env}.
Hypothesis HE : env_ok E.
Variables (c : custom) (p : xmss_params).
Hypothesis Hc : custom_ok c.
Hypothesis Hp : configured c p.
Notation P := (custom_sp c).
Lemma leaf_binding seed lf1 lf2 i auth1 auth2 a rt z1 z2 : length seed = cu_n c -> length lf1 = cu_n c -> length lf2 = cu_n c ->
  Forall (fun x => length x = cu_n c) auth1 -> length auth1 = sp_th P -> Forall (fun x => length x = cu_n c) auth2 -> length auth2 = sp_th P ->
  addr_ok a -> a3 a = 2%N -> a4 a = 0%N -> lf1 <> lf2 ->
  compute_root p lf1 i (concat auth1) 0 seed a = Ok (rt, z1) -> compute_root p lf2 i (concat auth2) 0 seed a = Ok (rt, z2) ->
  collision P seed (climb_queries P seed (a0 a) (tree_word a) lf1 0 i auth1) (climb_queries P seed (a0 a) (tree_word a) lf2 0 i auth2).
Proof.
  intros Ls L1 L2 F1 A1 F2 A2 Ha Ht H4 Hne C1 C2.
  destruct (compute_root_ok c p HE Hc Hp seed lf1 i auth1 a Ls L1 F1 A1 Ha Ht H4) as [w1 D1]. rewrite C1 in D1. injection D1 as D1 _.
  destruct (compute_root_ok c p HE Hc Hp seed lf2 i auth2 a Ls L2 F2 A2 Ha Ht H4) as [w2 D2]. rewrite C2 in D2. injection D2 as D2 _.
  rewrite D1 in D2. apply (climb_bind P (c_hash_n HE c Hc)) in D2; try assumption; [|congruence]. destruct D2; [contradiction|assumption].
Qed.
Lemma pk_binding seed pk1 pk2 a v z1 z2 : length seed = cu_n c ->
  Forall (fun x => length x = cu_n c) pk1 -> length pk1 = sp_len P -> Forall (fun x => length x = cu_n c) pk2 -> length pk2 = sp_len P ->
  addr_ok a -> a3 a = 1%N -> pk1 <> pk2 ->
  l_tree p (concat pk1) seed a = Ok (v, z1) -> l_tree p (concat pk2) seed a = Ok (v, z2) ->
  collision P seed (ltree_queries P seed (a0 a) (tree_word a) (a4 a) (sp_len P) 0 pk1) (ltree_queries P seed (a0 a) (tree_word a) (a4 a) (sp_len P) 0 pk2).
Proof.
  intros Ls F1 A1 F2 A2 Ha Ht Hne C1 C2.
  assert (Hf : func p = fn_code (cu_fn c)).
  { destruct Hp as [p0 [Hi [H|[_ H]]]]; rewrite (init_cp c Hc _ p0 Hi) in H; injection H as <-; reflexivity. }
  assert (Hfn : fn_ok (cu_fn c) (p_n p)) by (rewrite (conf_n c p HE Hc Hp); apply Hc).
  assert (Hw : wots_len p = sp_len P) by (rewrite <- (conf_sp c p HE Hc Hp); symmetry; apply sp_len_of, (conf_params c p HE Hc Hp)).
  pose proof (c_len c Hc) as Hl.
  assert (Hsp : mkSp (p_n p) (wots_log_w p) (padding_len p) (full_height p) (p_d p) (hash_of (cu_fn c) (p_n p)) = P).
  { rewrite (conf_n c p HE Hc Hp) at 2. exact (conf_sp c p HE Hc Hp). }
  assert (Hnn := conf_n c p HE Hc Hp).
  assert (HT : forall nodes, Forall (fun x => length x = cu_n c) nodes -> length nodes = sp_len P ->
     exists a', l_tree p (concat nodes) seed a = Ok (ltree P seed (a0 a) (tree_word a) (a4 a) (sp_len P) 0 nodes, a')).
  { intros nodes F L. destruct (l_tree_any (cu_fn c) p seed nodes a HE Hf Hfn) as [a' H]; [congruence|lia|congruence| |assumption|assumption|].
    - rewrite Hnn. exact F.
    - exists a'. rewrite H, Hsp, L. reflexivity. }
  destruct (HT pk1 F1 A1) as [w1 D1]. rewrite C1 in D1. injection D1 as D1 _.
  destruct (HT pk2 F2 A2) as [w2 D2]. rewrite C2 in D2. injection D2 as D2 _.
  rewrite D1 in D2. apply (ltree_bind P (c_hash_n HE c Hc)) in D2; try assumption; [|lia|lia]. destruct D2; [contradiction|assumption].
Qed.
End CodeBind.

(** *** Domain separation *)
Lemma hashed_separated P r1 r2 k1 k2 m1 m2 : 1 <= sp_pad P -> length k1 = key_len P r1 -> length k2 = key_len P r2 ->
  hashed P r1 k1 m1 = hashed P r2 k2 m2 -> r1 = r2 /\ k1 = k2 /\ m1 = m2.
Proof.
  intros Hpad L1 L2 H. unfold hashed in H. apply app_inj_len in H; [|now rewrite !toByte_length]. destruct H as [Ht H].
  assert (r1 = r2).
  { assert (Hb : (256 ^ 1 <= 256 ^ N.of_nat (sp_pad P))%N) by (apply N.pow_le_mono_r; lia).
    apply toByte_inj in Ht; [|destruct r1; cbn [role_tag]; lia|destruct r2; cbn [role_tag]; lia].
    destruct r1, r2; cbn in Ht; congruence. }
  subst r2. split; [reflexivity|]. apply app_inj_len in H; [exact H|congruence].
Qed.
Lemma msg_key_inj P r1 rt1 i1 r2 rt2 i2 : length r1 = sp_n P -> length rt1 = sp_n P -> length r2 = sp_n P -> length rt2 = sp_n P ->
  (i1 < 256 ^ N.of_nat (sp_n P))%N -> (i2 < 256 ^ N.of_nat (sp_n P))%N ->
  r1 ++ rt1 ++ toByte i1 (sp_n P) = r2 ++ rt2 ++ toByte i2 (sp_n P) -> r1 = r2 /\ rt1 = rt2 /\ i1 = i2.
Proof.
  intros L1 L2 L3 L4 H1 H2 H. apply app_inj_len in H; [|congruence]. destruct H as [-> H]. apply app_inj_len in H; [|congruence]. destruct H as [-> H].
  apply toByte_inj in H; [auto|assumption..].
Qed.

(** *** Addresses *)
Lemma toByte4_inj x y : (x < 2 ^ 32)%N -> (y < 2 ^ 32)%N -> toByte x 4 = toByte y 4 -> x = y.
Proof. intros H1 H2. apply toByte_inj; assumption. Qed.
Lemma toByte8_inj x y : (x < 2 ^ 64)%N -> (y < 2 ^ 64)%N -> toByte x 8 = toByte y 8 -> x = y.
Proof. intros H1 H2. apply toByte_inj; assumption. Qed.
Lemma adrs_inj a b : adrs_ok a -> adrs_ok b -> adrs_bytes a = adrs_bytes b -> a = b.
Proof.
  intros Ha Hb H.
  destruct a as [l t o c h k|l t o c h k|l t c h k]; destruct b as [l' t' o' c' h' k'|l' t' o' c' h' k'|l' t' c' h' k'];
  cbn [adrs_ok adrs_bytes] in *;
  repeat match goal with Hx : _ /\ _ |- _ => destruct Hx end;
  apply app_inj_len in H; [|now rewrite !toByte_length| | | | | | | | | | | | | | | | ]; try (now rewrite !toByte_length);
  destruct H as [E1 H]; (apply app_inj_len in H; [|now rewrite !toByte_length]); destruct H as [E2 H];
  (apply app_inj_len in H; [|now rewrite !toByte_length]); destruct H as [E3 H]; try discriminate E3;
  (apply app_inj_len in H; [|now rewrite !toByte_length]); destruct H as [E4 H];
  (apply app_inj_len in H; [|now rewrite !toByte_length]); destruct H as [E5 H];
  (apply app_inj_len in H; [|now rewrite !toByte_length]); destruct H as [E6 E7];
  f_equal; (apply toByte4_inj; assumption) || (apply toByte8_inj; assumption).
Qed.
Lemma addr_inj a b : addr_ok a -> addr_ok b -> addr_to_bytes a = addr_to_bytes b -> a = b.
Proof.
  intros Ha Hb H. destruct a as [x0 x1 x2 x3 x4 x5 x6 x7], b as [y0 y1 y2 y3 y4 y5 y6 y7]. unfold addr_ok, addr_to_bytes in *. cbn [a0 a1 a2 a3 a4 a5 a6 a7] in *. rewrite !ull_to_bytes_spec in H.
  repeat match goal with Hx : _ /\ _ |- _ => destruct Hx end.
  do 7 (apply app_inj_len in H; [|now rewrite !toByte_length]; let E := fresh "E" in destruct H as [E H]).
  f_equal; apply toByte4_inj; assumption.
Qed.
Lemma key_adrs_ok {E : Env} c a : custom_ok c -> key_adrs (custom_sp c) a -> adrs_ok a.
Proof.
  intros Hc Ha. pose proof (c_d c Hc) as Hd. pose proof (c_th (E := E) c Hc) as Hth.
  assert (Hl : sp_len (custom_sp c) <= 300).
  { pose proof (c_len1_le c Hc). pose proof (c_len2_le c Hc). unfold sp_len.
    change (sp_len1 (custom_sp c)) with (sp_len1 (custom_sp (E := {| sha256 := fun _ => []; sha512 := fun _ => []; junk := fun _ => 0%N |}) c)).
    change (sp_len2 (custom_sp c)) with (sp_len2 (custom_sp (E := {| sha256 := fun _ => []; sha512 := fun _ => []; junk := fun _ => 0%N |}) c)). lia. }
  assert (Hw : sp_w (custom_sp c) <= 256) by (destruct (c_lgw c Hc) as [Hw|[Hw|Hw]]; unfold sp_w, custom_sp, sp_lgw; rewrite Hw; cbn; lia).
  assert (Hh : cu_h c < 64) by (apply Hc).
  assert (Ht : forall t k, (t < 2 ^ N.of_nat (sp_h (custom_sp c) - k))%N -> (t < 2 ^ 64)%N).
  { intros t k H. eapply N.lt_le_trans; [exact H|]. apply N.pow_le_mono_r; [lia|]. cbn [custom_sp sp_h]. lia. }
  assert (Ho : forall t k, (t < 2 ^ N.of_nat (sp_th (custom_sp c) - k))%N -> (t < 2 ^ 32)%N).
  { intros t k H. eapply N.lt_le_trans; [exact H|]. apply N.pow_le_mono_r; lia. }
  assert (Hbig : (300 < 2 ^ 32)%N) by reflexivity.
  destruct Ha as [l t o ch s k H1 H2 H3 H4 H5 H6|l t o j i k H1 H2 H3 H4 H5 H6|l t j i k H1 H2 H3 H4 H5]; cbn [custom_sp sp_d] in H1; cbn [adrs_ok].
  - assert (o < 2 ^ 32)%N by (apply (Ho o 0); rewrite Nat.sub_0_r; exact H3). repeat split; try assumption; try lia. exact (Ht t _ H2).
  - assert (o < 2 ^ 32)%N by (apply (Ho o 0); rewrite Nat.sub_0_r; exact H3). repeat split; try assumption; try lia. exact (Ht t _ H2).
  - assert (i < 2 ^ 32)%N by (apply (Ho i (1 + j)); rewrite Nat.sub_add_distr; exact H4). repeat split; try assumption; try lia. exact (Ht t _ H2).
Qed.
Lemma setters_ots a l t o c h k : adrs_ok (OTS l t o c h k) ->
  addr_to_bytes (set_key_and_mask (set_hash_addr (set_chain_addr (set_ots_addr (set_type (set_tree_addr (set_layer_addr a l) t) 0) o) c) h) k) = adrs_bytes (OTS l t o c h k).
Proof. intros [H1 [H2 _]]. apply addr_bytes_ots; try reflexivity. split; [reflexivity|]. split; [apply u32_shiftr_u64|]. split; reflexivity. Qed.
Lemma setters_ltree a l t o c h k : adrs_ok (LTREE l t o c h k) ->
  addr_to_bytes (set_key_and_mask (set_tree_index (set_tree_height (set_ltree_addr (set_type (set_tree_addr (set_layer_addr a l) t) 1) o) c) h) k) = adrs_bytes (LTREE l t o c h k).
Proof. intros [H1 [H2 _]]. apply addr_bytes_ltree; try reflexivity. split; [reflexivity|]. split; [apply u32_shiftr_u64|]. split; reflexivity. Qed.
Lemma setters_htree a l t c h k : adrs_ok (HTREE l t c h k) -> a4 a = 0%N ->
  addr_to_bytes (set_key_and_mask (set_tree_index (set_tree_height (set_type (set_tree_addr (set_layer_addr a l) t) 2) c) h) k) = adrs_bytes (HTREE l t c h k).
Proof. intros [H1 [H2 _]] H4. apply addr_bytes_htree; try reflexivity; [|exact H4]. split; [reflexivity|]. split; [apply u32_shiftr_u64|]. split; reflexivity. Qed.
Lemma what_is_hashed {E : Env} c p : env_ok E -> custom_ok c -> configured c p ->
  let P := custom_sp c in let n := cu_n c in let h := sp_hash P in
  (forall inp key, length inp = 32 -> length key = n -> prf p inp key = Ok (h (hashed P RolePrf key inp))) /\
  (forall inp key, length inp = n + 32 -> length key = n -> prf_keygen p inp key = Ok (h (hashed P RoleKeygen key inp))) /\
  (forall x seed a, length x = n -> length seed = n ->
     let prf k := h (hashed P RolePrf seed (addr_to_bytes (set_key_and_mask a k))) in
     thash_f p x seed a = Ok (h (hashed P RoleF (prf 0%N) (xorb_spec x (prf 1%N))), set_key_and_mask a 1)) /\
  (forall x y seed a, length x = n -> length y = n -> length seed = n ->
     let prf k := h (hashed P RolePrf seed (addr_to_bytes (set_key_and_mask a k))) in
     thash_h p (x ++ y) seed a = Ok (h (hashed P RoleH (prf 0%N) (xorb_spec x (prf 1%N) ++ xorb_spec y (prf 2%N))), set_key_and_mask a 2)) /\
  (forall R r root idx buf off mlen, (forall b, R b = Ok r) -> length r = n -> length root = n -> index_bytes p + n <= off ->
     off + cu_pad c + 3 * n + mlen <= length buf ->
     let m := firstn mlen (skipn (off + cu_pad c + 3 * n) buf) in
     exists buf', hash_message p R root idx buf off mlen = Ok (h (hashed P RoleMsg (r ++ root ++ toByte idx n) m), buf')).
Proof.
  intros HE Hc Hp P n h.
  pose proof (conf_hash c p HE Hc Hp) as HH. pose proof (conf_n c p HE Hc Hp) as Hn. pose proof (conf_sp c p HE Hc Hp) as Hsp.
  assert (Hpad : padding_len p = cu_pad c) by exact (f_equal sp_pad Hsp).
  set (Hf := hash_of (cu_fn c) (cu_n c)) in *.
  assert (Hprf : forall inp key, length inp = 32 -> length key = n -> prf p inp key = Ok (h (hashed P RolePrf key inp))).
  { intros inp key H1 H2. rewrite (prf_spec p Hf HH) by (rewrite ?Hn; assumption). rewrite Hsp. reflexivity. }
  split; [exact Hprf|]. split.
  { intros inp key H1 H2. rewrite (prf_keygen_spec p Hf HH) by (rewrite ?Hn; assumption). rewrite Hsp. reflexivity. }
  split.
  { intros x seed a H1 H2 prf'. unfold thash_f. cbv zeta. rewrite Hprf by (apply addr_to_bytes_length || assumption). rewrite bind_ok.
    change (set_key_and_mask (set_key_and_mask a 0) 1) with (set_key_and_mask a 1).
    rewrite Hprf by (apply addr_to_bytes_length || assumption). rewrite bind_ok. assert (Hrd : rd x 0 (p_n p) = Ok x) by (apply rd_all; [reflexivity|unfold n in *; lia]). rewrite Hrd, bind_ok.
    destruct (HH (ModelUtils.ull_to_bytes (padding_len p) XMSS_HASH_PADDING_F ++ prf' 0%N ++ xor_bytes x (prf' 1%N))) as [H _].
    change (h (hashed P RolePrf seed (addr_to_bytes (set_key_and_mask a 0)))) with (prf' 0%N). change (h (hashed P RolePrf seed (addr_to_bytes (set_key_and_mask a 1)))) with (prf' 1%N).
    rewrite H, bind_ok, ull_to_bytes_spec, Hpad. reflexivity. }
  split.
  { intros x y seed a H1 H2 H3 prf'. unfold thash_h. cbv zeta. rewrite Hprf by (apply addr_to_bytes_length || assumption). rewrite bind_ok.
    change (set_key_and_mask (set_key_and_mask a 0) 1) with (set_key_and_mask a 1).
    rewrite Hprf by (apply addr_to_bytes_length || assumption). rewrite bind_ok.
    change (set_key_and_mask (set_key_and_mask a 1) 2) with (set_key_and_mask a 2).
    rewrite Hprf by (apply addr_to_bytes_length || assumption). rewrite bind_ok. assert (Hrd : rd (x ++ y) 0 (2 * p_n p) = Ok (x ++ y)) by (apply rd_all; [reflexivity|rewrite app_length; unfold n in *; lia]). rewrite Hrd, bind_ok.
    change (h (hashed P RolePrf seed (addr_to_bytes (set_key_and_mask a 0)))) with (prf' 0%N). change (h (hashed P RolePrf seed (addr_to_bytes (set_key_and_mask a 1)))) with (prf' 1%N).
    change (h (hashed P RolePrf seed (addr_to_bytes (set_key_and_mask a 2)))) with (prf' 2%N).
    destruct (HH (ModelUtils.ull_to_bytes (padding_len p) XMSS_HASH_PADDING_H ++ prf' 0%N ++ xor_bytes (x ++ y) (prf' 1%N ++ prf' 2%N))) as [H _].
    rewrite H, bind_ok, ull_to_bytes_spec, Hpad, xor_bytes_spec.
    rewrite xorb_app by (rewrite H1; unfold prf', h, P; symmetry; apply (proj1 (c_hash_n HE c Hc _))). reflexivity. }
  intros R r root idx buf off mlen HR Hr Hrt Hoff Hbuf m.
  destruct (hash_message_spec p Hf HH R root idx buf off mlen r m) as [buf' [H _]].
  - intros b _ _. apply HR.
  - rewrite Hn. exact Hoff.
  - rewrite Hn; exact Hr.
  - rewrite Hn. unfold n in *. lia.
  - rewrite Hn, Hpad. exact Hbuf.
  - rewrite Hn, Hpad. reflexivity.
  - exists buf'. rewrite H, Hsp, firstn_all2 by (rewrite Hn; unfold n in *; lia). reflexivity.
Qed.
(** the hypotheses of [forgery] can be met: whoever knows the secret key can sign a second
    message with a used index *)
Lemma forgery_met {E : Env} (HE : env_ok E) mt r rnd pk0 sk0 cs k x m c : In r (rows mt) -> (forall i, (rnd i < 256)%N) ->
  length pk0 = 4 + pk_size r -> length sk0 = 4 + sk_size r ->
  (N.of_nat (length cs) < 2 ^ N.of_nat (r_h r))%N -> Forall (call_ok r) cs -> nth_error cs k = Some x -> bytes_ok m -> m <> c_m x -> a_core c ->
  exists pk sk sk' os o sm mbuf oo,
    keypair mt ref_core pk0 sk0 (r_oid r) rnd = Ok (0%Z, pk, sk) /\ sign_run mt ref_core sk cs = Ok (sk', os) /\ nth_error os k = Some o /\
    sig_size r <= length sm /\ bytes_ok sm /\ length sm <= length mbuf /\
    sign_open mt c mbuf 0 sm pk = Ok oo /\ oo_rc oo = 0%Z /\ sm_index r sm = N.of_nat k /\ skipn (sig_size r) sm <> c_m x.
Proof.
  intros Hr Hb Lp Ls Hn Hok Hx Bm Hne Hc.
  destruct (keypair_exact HE mt r pk0 sk0 rnd Hr Hb Lp Ls) as [a [b [ct [d [Hf [Hct [_ Hkp]]]]]]].
  destruct (run_live HE mt r a b ct d Hr Hf cs 0) as [os [Hrun [Hlen Hnth]]]; [lia|exact Hok|]. specialize (Hnth k x Hx).
  assert (Hk : k < length cs) by (apply nth_error_Some; rewrite Hx; discriminate).
  destruct (honest_opens HE mt r Hr a b ct d Hf Hct c (N.of_nat k) m (repeat 0%N (sig_size r + length m)) 0) as [oo [Hoo [Hoc _]]]; [exact Hc|lia|exact Bm|rewrite repeat_length; lia|].
  set (sg := mt_sign (row_sp r) a b ct d (N.of_nat k) m) in *.
  assert (Lsg : length sg = sig_size r) by (apply (mt_sign_len HE mt r Hr)).
  eexists _, _, _, os, _, (sg ++ m), (repeat 0%N (sig_size r + length m)), oo.
  split; [exact Hkp|]. split; [exact Hrun|]. split; [exact Hnth|]. split; [rewrite app_length; lia|].
  split; [apply Forall_app; split; [apply (mt_sign_bytes HE mt r Hr)|exact Bm]|]. split; [rewrite repeat_length, app_length; lia|].
  split; [exact Hoo|]. split; [exact Hoc|]. split.
  - unfold sm_index. assert (Hs : idx_size r <= sig_size r) by (unfold sig_size, sp_sig_bytes, idx_size; lia).
    rewrite firstn_app, (proj2 (Nat.sub_0_le (idx_size r) (length sg))) by lia. cbn [firstn]. rewrite app_nil_r.
    unfold sg, mt_sign. cbv zeta. rewrite firstn_app, toByte_length. fold (idx_size r). rewrite Nat.sub_diag. cbn [firstn]. rewrite app_nil_r, firstn_all2 by (rewrite toByte_length; lia).
    rewrite os2ip_toByte. apply N.mod_small. pose proof (idx_size_le mt r Hr) as [_ Hh]. rewrite pow256_pow2.
    eapply N.lt_le_trans; [|apply N.pow_le_mono_r with (b := N.of_nat (r_h r)); lia]. lia.
  - rewrite skipn_app, skipn_all2, Lsg, Nat.sub_diag by lia. exact Hne.
Qed.
