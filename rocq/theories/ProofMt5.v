(** The whole update loop of the multi-tree signing function keeps the traversal invariant. *)
From Coq Require Import ZArith.
From Verif Require Import Base ModelUtils ModelParams ModelHash ModelWots ModelCommons ModelCoreFast SpecRfc Lib ProofUtils ProofHash ProofWots ProofCommons ProofTree ProofCore ProofSched ProofBds1 ProofBds2 ProofBds3 ProofBds4 ProofFast1 ProofFast2 ProofFast5 ProofMt1 ProofMt2 ProofMt3 ProofMt4.

Section Mt.
Context {E : Env}.
Variable p : xmss_params.
Variable Hf : bytes -> bytes.
Hypothesis Hp : params_ok p.
Hypothesis HH : hash_total p Hf.
Notation P := (sp_of p Hf).
Notation n := (p_n p).
Notation H := (tree_height p).
Notation k := (bds_k p).
Notation thc := (thcount p).
Notation wsig := (wots_sig_bytes p).
Notation d := (p_d p).
Hypothesis Hk : k < H.
Hypothesis H3 : 3 <= H.
Notation U := ((H - k) / 2).
Hypothesis HU : Nat.min thc (H - 2) <= 2 * U.
Variables (sks seed : bytes).
Hypothesis Hsks : length sks = n.
Hypothesis Hseed : length seed = n.
Notation dig := (dig H).
Notation hi := (hi H).
Notation full := (full H).
Notation cnt := (cnt H).
Notation A := (A p).
Notation layer := (layer p Hf sks seed).
Notation ex_next := (ex_next p).
Notation allgood := (allgood H).

Let H2 : H <> 2.
Proof. clear - H3; lia. Qed.
Let H30 : H <= 30.
Proof. pose proof (po_th p Hp). lia. Qed.
Let Hh : full_height p = H * d.
Proof. rewrite (po_h p Hp). apply Nat.mul_comm. Qed.
Let U128 : U < 128.
Proof. pose proof (po_th p Hp) as X. apply Nat.div_lt_upper_bound; clear - X; lia. Qed.



Notation slot := (ck wsig).
Notation up_sig := (up_sig p Hf sks seed).

(** the traversal data of a key whose next index is [idx] *)
Definition mtinv (idx : N) (ss : list bds_state) (ws : bytes) : Prop :=
  length ss = nstates p /\ length ws = (d - 1) * wsig /\ (forall i, i < d -> layer 0 idx i ss) /\
  (forall i, S i < d -> slot ws i = up_sig idx i).

Lemma up_same idx m i : ~ full idx (S m) -> m <= i -> up_sig (idx + 1) i = up_sig idx i.
Proof.
  intros NF Hi. assert (N1 : ~ full idx (S i)) by (apply (not_full_up H idx (S m)); [clear - Hi; lia|exact NF]).
  assert (N2 : ~ full idx (S (S i))) by (apply (not_full_up H idx (S m)); [clear - Hi; lia|exact NF]).
  unfold ProofMt4.up_sig. rewrite (proj2 (hi_step H idx (S i)) N1), (proj2 (hi_step H idx (S (S i))) N2), (dig_same H idx (S i) N1). reflexivity.
Qed.

(** the update of layer 0's next tree before the loop *)
Lemma pre_update idx ss a : (idx < 2 ^ N.of_nat (H * d))%N -> length ss = nstates p -> layer 0 idx 0 ss -> sub_ctx 0 (hi idx 1 + 1) a ->
  exists ss2, (if (u64 ((1 + hi idx 1) * 2 ^ N.of_nat H + N.of_nat (dig idx 0)) <? 2 ^ N.of_nat (full_height p))%N
    then let* nx := rdc ss d in let* nx := bds_state_update p nx sks seed a in wrc ss d nx else Ok ss) = Ok ss2 /\
    length ss2 = length ss /\ layer 1 idx 0 ss2 /\ (forall j, j <> d -> nth_error ss2 j = nth_error ss j).
Proof.
  intros Lidx Lss (s & f & u & base & L1 & C & L3) Hsub.
  assert (Hd : 0 < d) by (pose proof (po_d p Hp) as X; clear - X; lia).
  pose proof (exists_test p Hp Hk H3 HU sks seed Hsks Hseed idx 0 Hd Lidx) as ET. rewrite Nat.mul_0_r, Nat.sub_0_r in ET.
  destruct (_ <? _)%N.
  2:{ exists ss. split; [reflexivity|]. split; [reflexivity|]. split; [|auto]. exists s, f, u, base. split; [exact L1|]. split; [exact C|].
      intros HS. destruct (L3 HS) as (nx & N1 & N2 & N3 & N4). exists nx. split; [exact N1|]. split; [exact N2|]. split; [exact N3|].
      intros Hex. apply ET in Hex. discriminate. }
  assert (Hex : ex_next idx 0) by (now apply ET). clear ET.
  assert (HS : 1 < d).
  { destruct (Nat.eq_dec d 1) as [Hl|Hne]; [exfalso|clear - Hd Hne; lia]. unfold ProofMt2.ex_next in Hex. rewrite Hl in Hex.
    change (2 ^ N.of_nat (H * 0))%N with (2 ^ N.of_nat (H * 0))%N in Hex. cbn [Nat.sub] in Hex. rewrite Nat.mul_0_r in Hex. change (2 ^ N.of_nat 0)%N with 1%N in Hex. clear - Hex; lia. }
  destruct (L3 HS) as (nx & N1 & N2 & N3 & N4). destruct (N4 Hex) as (e & Q1 & Q2 & Q3). rewrite Nat.add_0_r in N1.
  unfold link in Q3. cbn [Nat.eqb] in Q3. rewrite Nat.add_0_r in Q3.
  pose proof (dig_lt H idx 0) as Dl. rewrite <- Q3 in Dl.
  destruct (bds_state_update_spec p Hf Hp HH Hk sks seed 0 (hi idx 1 + 1) Hsks Hseed (N.of_nat e) nx a) as (nx' & Z1 & Z2 & _ & Z4).
  { exact H2. } { rewrite pBn. clear - Dl; lia. } { exact Q2. } { exact Hsub. }
  rewrite (rdc_some _ _ nx N1), bind_ok, Z1, bind_ok. assert (Ld : d < length ss) by (rewrite Lss; unfold nstates; clear - HS; lia). rewrite wrc_ok by exact Ld.
  eexists. split; [reflexivity|]. split; [apply upd_length|]. split; [|intros j Hj; apply nth_error_upd_other; auto].
  exists s, f, u, base. split; [rewrite nth_error_upd_other by (clear - Hd; lia); exact L1|]. split; [exact C|]. intros _.
  exists nx'. split; [rewrite Nat.add_0_r; apply nth_error_upd_same; exact Ld|]. split; [exact (pt_shape _ _ _ _ _ _ _ _ Z2)|].
  split.
  { apply (range_scal nx nx' N3 Z4).
    - rewrite (pt_off _ _ _ _ _ _ _ _ Z2). eapply N.le_lt_trans; [apply N2len, bst_length|]. change (2 ^ 32)%N with 4294967296%N. clear - H30; lia.
    - rewrite (pt_next _ _ _ _ _ _ _ _ Z2). assert (Le : (N.of_nat e + 1 <= 2 ^ N.of_nat H)%N) by (rewrite pBn; clear - Dl; lia).
      eapply N.le_lt_trans; [exact Le|]. apply N.pow_lt_mono_r; clear - H30; lia. }
  intros _. exists (e + 1). split; [clear - Dl; lia|]. split; [replace (N.of_nat (e + 1)) with (N.of_nat e + 1)%N by (clear; lia); exact Z2|].
  unfold link. cbn [Nat.eqb]. rewrite Q3. reflexivity.
Qed.

Lemma up_same_window idx m : (idx + 1 < 2 ^ N.of_nat (H * (U + 2)))%N -> full idx m -> m <= U + 1.
Proof.
  intros L F. destruct (Nat.le_gt_cases m (U + 1)) as [G|G]; [exact G|exfalso].
  apply (full_bound H idx (U + 2) L). apply (full_lt H idx m); [clear - G; lia|exact F].
Qed.

(** what is needed to store a layer *)
Definition weak (i : nat) (ss : list bds_state) : Prop :=
  exists s, nth_error ss i = Some s /\ shape p s /\ in_range s /\
    (S i < d -> exists nx, nth_error ss (d + i) = Some nx /\ shape p nx /\ in_range nx).
Lemma weak_frame i ss ss' : nth_error ss' i = nth_error ss i -> nth_error ss' (d + i) = nth_error ss (d + i) -> weak i ss -> weak i ss'.
Proof. intros E1 E2 (s & A1 & A2 & A3 & A4). exists s. rewrite E1, E2. auto. Qed.
Lemma cur_shape idx i f u base s : cur p Hf sks seed idx i f u base s -> shape p s /\ in_range s.
Proof.
  intros (C1 & C2 & C3 & C4 & _). split; [destruct C3 as [C3 _ _ _]; exact (ru_shape _ _ _ _ _ _ _ _ _ _ C3)|].
  exact (trav_range p Hf Hp HH Hk H2 HU sks seed _ _ Hsks Hseed _ _ _ _ _ C1 C2 C3 C4).
Qed.
Lemma layer_weak z idx i ss : layer z idx i ss -> weak i ss.
Proof.
  intros (s & f & u & base & L1 & C & L3). destruct (cur_shape _ _ _ _ _ _ C) as [S1 S2]. exists s. split; [exact L1|]. split; [exact S1|]. split; [exact S2|].
  intros HSi. destruct (L3 HSi) as (nx & N1 & N2 & N3 & _). exists nx. auto.
Qed.
Lemma weak_all ss : length ss = nstates p -> (forall i, i < d -> weak i ss) -> states_ok p ss.
Proof.
  intros I1 I3. split; [exact I1|].
  assert (Hall : forall j s, nth_error ss j = Some s -> shape p s /\ in_range s).
  { intros j s Hj. assert (Lj : j < 2 * d - 1) by (unfold nstates in I1; rewrite <- I1; apply nth_error_Some; congruence).
    destruct (Nat.lt_ge_cases j d) as [Hjd|Hjd].
    - destruct (I3 j Hjd) as (s' & A1 & A2 & A3 & _). assert (s' = s) by congruence. subst s'. auto.
    - destruct (I3 (j - d) ltac:(clear - Lj Hjd; lia)) as (s0 & _ & _ & _ & A3).
      destruct (A3 ltac:(clear - Lj Hjd; lia)) as (nx & B1 & B2 & B3). replace (d + (j - d)) with j in B1 by (clear - Hjd; lia).
      assert (nx = s) by congruence. subst nx. auto. }
  split; apply Forall_forall; intros s Hs; apply In_nth_error in Hs as [j Hj]; apply (Hall j s Hj).
Qed.

(** the loop.  [bad] layers carry no invariant but [W]; [X] is the signature a
    bad layer stores when its tree is exchanged. *)
Section Loop.
Variables (idx : N) (m : nat) (bad : nat -> bool) (W : nat -> list bds_state -> Prop) (X : bytes) (ss0 : list bds_state) (ws0 : bytes).
Hypothesis Lidx : (idx + 1 < 2 ^ N.of_nat (H * d))%N.
Hypothesis Hm : m < d.
Hypothesis F : full idx m.
Hypothesis NF : ~ full idx (S m).
Hypothesis Hgood : forall i, i < d -> bad i = false -> layer (if i =? 0 then 1 else 0) idx i ss0.
Hypothesis Wframe : forall i ss ss', nth_error ss' i = nth_error ss i -> nth_error ss' (d + i) = nth_error ss (d + i) -> W i ss -> W i ss'.
Let Lidx' : (idx < 2 ^ N.of_nat (H * d))%N.
Proof. clear - Lidx; lia. Qed.
Let D64 : d < 64.
Proof. pose proof (po_h64 p Hp) as A1. rewrite Hh in A1. clear - A1 H3. nia. Qed.

Definition nsig (i : nat) : bytes := if bad i then X else up_sig (idx + 1) i.
Definition J7 (c : nat) (v : mt_vars) : Prop :=
  (c <= m /\ mv_swap v = (Z.of_nat c - 1)%Z /\ mv_updates v = if (c <=? U)%nat then N.of_nat (U - c) else (2 ^ 32 - N.of_nat (c - U))%N) \/
  (m < c /\ mv_swap v = (Z.of_nat m - 1)%Z /\ (m <= U -> exists w, mv_updates v = N.of_nat w /\ w <= U /\ (allgood idx c = true -> A c <= w) /\
     ((forall i, 0 < i -> i < c -> ex_next idx i) -> w <= U + 1 - c))).
Definition J8 (c : nat) (v : mt_vars) : Prop :=
  U + 1 < c -> bad (U + 1) = false -> m <= U + 1 -> H <= 5 -> (forall i, 0 < i -> i <= U + 1 -> ex_next idx i) ->
  forall nx, nth_error ss0 (d + (U + 1)) = Some nx -> (st_next_leaf nx < 2 ^ N.of_nat H)%N ->
  exists nx', nth_error (mv_ss v) (d + (U + 1)) = Some nx' /\ (st_next_leaf nx' = st_next_leaf nx + (if (m =? U + 1)%nat then 1 else 0))%N.
Definition J (c : nat) (v : mt_vars) : Prop :=
  length (mv_ss v) = nstates p /\ length (mv_ws v) = (d - 1) * wsig /\ a3 (mv_ots v) = 0%N /\
  (forall i, i < c -> i < d -> if bad i then W i (mv_ss v) else layer 0 (idx + 1) i (mv_ss v)) /\
  (forall i, c <= i -> i < d -> nth_error (mv_ss v) i = nth_error ss0 i /\ nth_error (mv_ss v) (d + i) = nth_error ss0 (d + i)) /\
  (forall i, S i < d -> slot (mv_ws v) i = if (i <? c) && (i <? m) then nsig i else slot ws0 i) /\
  J7 c v /\ J8 c v.

(** what remains to be shown of one step *)
Lemma advance c v v' : c < d -> J c v -> length (mv_ss v') = length (mv_ss v) ->
  (forall j, j <> c -> j <> d + c -> nth_error (mv_ss v') j = nth_error (mv_ss v) j) ->
  (if bad c then W c (mv_ss v') else layer 0 (idx + 1) c (mv_ss v')) ->
  length (mv_ws v') = (d - 1) * wsig -> a3 (mv_ots v') = 0%N ->
  (S c < d -> slot (mv_ws v') c = if c <? m then nsig c else slot (mv_ws v) c) ->
  (forall i, S i < d -> i <> c -> slot (mv_ws v') i = slot (mv_ws v) i) ->
  J7 (S c) v' -> (c = U + 1 -> J8 (S c) v') -> J (S c) v'.
Proof.
  intros Hc (A1 & A2 & A3 & A4 & A5 & A6 & _ & A8) S1 S2 S3 S4 S5 S6 S7 S8 S9.
  split; [rewrite S1; exact A1|]. split; [exact S4|]. split; [exact S5|]. split; [|split; [|split; [|split; [exact S8|]]]].
  - intros i Hi Hd. destruct (Nat.eq_dec i c) as [->|Hne]; [exact S3|].
    assert (F1 : nth_error (mv_ss v') i = nth_error (mv_ss v) i) by (apply S2; clear - Hne Hc Hd; lia).
    assert (F2 : nth_error (mv_ss v') (d + i) = nth_error (mv_ss v) (d + i)) by (apply S2; clear - Hne Hc Hd; lia).
    specialize (A4 i ltac:(clear - Hi Hne; lia) Hd). destruct (bad i); [exact (Wframe i _ _ F1 F2 A4)|exact (layer_frame p Hf sks seed _ _ i _ _ F1 F2 A4)].
  - intros i Hi Hd. destruct (A5 i ltac:(clear - Hi; lia) Hd) as [B1 B2]. split; [rewrite <- B1|rewrite <- B2]; apply S2; clear - Hi Hc Hd; lia.
  - intros i Hi. destruct (Nat.eq_dec i c) as [->|Hne].
    + rewrite (S6 Hi). destruct (Nat.ltb_spec c (S c)) as [_|Z]; [|clear - Z; lia]. cbn [andb]. destruct (c <? m) eqn:Em; [reflexivity|].
      rewrite (A6 c Hi), Em, andb_false_r. reflexivity.
    + rewrite (S7 i Hi Hne), (A6 i Hi). destruct (Nat.ltb_spec i c) as [Z|Z], (Nat.ltb_spec i (S c)) as [Y|Y]; try reflexivity; exfalso; clear - Hne Z Y; lia.
  - destruct (Nat.eq_dec c (U + 1)) as [Ec|Ec]; [exact (S9 Ec)|]. intros G1 G2 G3 G4 G5 nx Gn Gl.
    destruct (A8 ltac:(clear - G1 Ec; lia) G2 G3 G4 G5 nx Gn Gl) as (nx' & B1 & B2). exists nx'. split; [|exact B2].
    rewrite S2; [exact B1|clear - Hc; lia|clear - Ec; lia].
Qed.
Lemma at_c c v : c < d -> J c v -> bad c = false -> layer (if c =? 0 then 1 else 0) idx c (mv_ss v).
Proof.
  intros Hc (_ & _ & _ & _ & A5 & _) Hb. destruct (A5 c (le_n _) Hc) as [B1 B2]. exact (layer_frame p Hf sks seed _ _ c _ _ B1 B2 (Hgood c Hc Hb)).
Qed.
Lemma u32_pred x : (0 < x <= 2 ^ 32)%N -> u32 (x + (2 ^ 32 - 1)) = (x - 1)%N.
Proof.
  intros Hx. unfold u32. replace (x + (2 ^ 32 - 1))%N with (x - 1 + 1 * 2 ^ 32)%N by (clear - Hx; lia).
  rewrite N.mod_add by discriminate. apply N.mod_small. clear - Hx; lia.
Qed.
Lemma next_updates c : c < d -> u32 ((if (c <=? U)%nat then N.of_nat (U - c) else 2 ^ 32 - N.of_nat (c - U)) + (2 ^ 32 - 1)) =
  (if (S c <=? U)%nat then N.of_nat (U - S c) else 2 ^ 32 - N.of_nat (S c - U))%N.
Proof.
  intros Hc. destruct (Nat.leb_spec c U) as [G|G], (Nat.leb_spec (S c) U) as [Y|Y]; try (exfalso; clear - G Y; lia).
  - rewrite u32_pred by (change (2 ^ 32)%N with 4294967296%N; clear - G Y U128; lia). clear - Y; lia.
  - replace (U - c) with 0 by (clear - G Y; lia). replace (S c - U) with 1 by (clear - G Y; lia). reflexivity.
  - rewrite u32_pred by (change (2 ^ 32)%N with 4294967296%N; clear - G D64 Hc; lia). change (2 ^ 32)%N with 4294967296%N; clear - G D64 Hc; lia.
Qed.

Lemma loop_step c v : c < d -> bad c = false -> (c < m -> c <= U) -> J c v ->
  exists v', mt_layer_step p idx sks seed c v = Ok v' /\ J (S c) v'.
Proof.
  intros Hc Hb Hlow HJ. pose proof HJ as (A1 & A2 & A3 & A4 & A5 & A6 & A7 & A8). pose proof (at_c c v Hc HJ Hb) as Lc.
  destruct A7 as [(K1 & K2 & K3)|(K1 & K2 & K3)].
  - assert (Hsw : Z.of_nat c = (mv_swap v + 1)%Z) by (clear - K2; lia).
    destruct (Nat.eq_dec c m) as [->|Hne].
    + destruct (Nat.leb_spec m U) as [HmU|HmU].
      * destruct (step_round p Hf Hp HH Hk H3 HU sks seed Hsks Hseed idx m v Hc HmU Lidx' A1 F NF Lc K3 Hsw) as (v' & w' & E1 & (E2 & E2' & E2'') & E3 & E4 & E5 & E6 & E7 & E8).
        exists v'. split; [exact E1|]. apply (advance m v v' Hc HJ E2 E2').
        -- rewrite Hb. exact E2''. -- rewrite E3. exact A2. -- rewrite E4. exact A3.
        -- intros _. rewrite Nat.ltb_irrefl, E3. reflexivity.
        -- intros i _ _. now rewrite E3.
        -- right. split; [clear; lia|]. split; [rewrite E5; exact K2|]. intros _. exists w'. split; [exact E6|]. split; [clear - E7; lia|]. split; [exact E8|]. intros _. clear - E7. lia.
        -- intros Eu. clear - Eu HmU. lia.
      * assert (Hcm : (N.of_nat (m - U) <= 64)%N) by (clear - D64 Hm; lia).
        destruct (step_huge p Hf Hp HH Hk H3 HU sks seed Hsks Hseed idx m v Hc HmU Lidx' A1 F NF) as (v' & E1 & (E2 & E2' & E2'') & E3 & E4 & E5 & E6).
        { destruct (Nat.eqb_spec m 0) as [E0|_]; [clear - E0 HmU; lia|exact Lc]. }
        { rewrite K3. change (2 ^ 32)%N with 4294967296%N. change (2 ^ 31)%N with 2147483648%N. clear - Hcm. lia. } { exact Hsw. }
        exists v'. split; [exact E1|]. apply (advance m v v' Hc HJ E2 E2').
        -- rewrite Hb. exact E2''. -- rewrite E3. exact A2. -- rewrite E4. exact A3.
        -- intros _. rewrite Nat.ltb_irrefl, E3. reflexivity.
        -- intros i _ _. now rewrite E3.
        -- right. split; [clear; lia|]. split; [rewrite E5; exact K2|]. intros Z. clear - Z HmU. lia.
        -- intros Eu _ _ _ H5 Hex nx Gn Gl. rewrite <- Eu in *. destruct (A5 m (le_n _) Hc) as [_ B2]. rewrite <- B2 in Gn.
           destruct (E6 H5) with (nx := nx) as (nx' & D1 & D2); [|apply Hex; clear - HmU; lia|exact Gn|exact Gl|].
           { rewrite K3. replace (m - U) with 1 by (clear - Eu; lia). split; [vm_compute; discriminate|reflexivity]. }
           exists nx'. split; [exact D1|]. rewrite Nat.eqb_refl. exact D2.
    + assert (Hcm : c < m) by (clear - K1 Hne; lia). assert (HSc : S c < d) by (clear - Hcm Hm; lia).
      assert (Fc : full idx (S c)) by (apply (full_lt H idx m); assumption).
      destruct (step_swap p Hf Hp HH Hk H3 HU sks seed Hsks Hseed idx c v HSc (Hlow Hcm) Lidx A1 Fc Lc A2 A3) as (v' & E1 & (E2 & E2' & E2'') & E3 & E4 & E5 & E6 & E7 & E8).
      exists v'. split; [exact E1|]. apply (advance c v v' Hc HJ E2 E2').
      * rewrite Hb. exact E2''. * rewrite E6. exact A2. * exact E5.
      * intros _. rewrite E7. destruct (Nat.ltb_spec c m) as [_|Z]; [unfold nsig; rewrite Hb; reflexivity|clear - Z Hcm; lia].
      * intros i Hi Hic. apply E8; [clear - Hi; lia|exact Hic].
      * left. split; [exact Hcm|]. split; [rewrite E4; clear; lia|]. rewrite E3, K3. apply next_updates. exact Hc.
      * intros Eu. specialize (Hlow Hcm). clear - Eu Hlow. lia.
  - assert (Hc0 : 0 < c) by (clear - K1; lia).
    assert (NFc : ~ full idx c) by (apply (not_full_up H idx (S m)); assumption).
    assert (Hsw : (Z.of_nat c <> mv_swap v + 1)%Z) by (rewrite K2; clear - K1; lia).
    destruct (Nat.le_gt_cases m U) as [HmU|HmU].
    + destruct (K3 HmU) as (w & W1 & W2 & W3 & W4).
      destruct (step_other p Hf Hp HH Hk H3 HU sks seed Hsks Hseed _ idx c v w Hc0 Hc Lidx' A1 NFc Lc W1 W2 W3 Hsw) as (v' & w' & E1 & (E2 & E2' & E2'') & E3 & E4 & E5 & E6 & E7 & E8 & E9 & E10).
      exists v'. split; [exact E1|]. apply (advance c v v' Hc HJ E2 E2').
      * rewrite Hb. exact E2''. * rewrite E3. exact A2. * rewrite E4. exact A3.
      * intros _. rewrite E3. destruct (Nat.ltb_spec c m) as [Z|_]; [clear - Z K1; lia|reflexivity].
      * intros i _ _. now rewrite E3.
      * right. split; [clear - K1; lia|]. split; [rewrite E5; exact K2|]. intros _. exists w'. split; [exact E6|]. split; [exact E7|]. split; [exact E8|].
        intros Hex. specialize (E9 (Hex c Hc0 (le_n _))). assert (W5 : w <= U + 1 - c) by (apply W4; intros i I1 I2; apply Hex; [exact I1|clear - I2; lia]). clear - E9 W5. lia.
      * intros Eu _ _ _ _ Hex nx Gn Gl. destruct (A5 c (le_n _) Hc) as [_ B2].
        assert (W0 : w = 0). { assert (W5 : w <= U + 1 - c) by (apply W4; intros i I1 I2; apply Hex; [exact I1|clear - I2 Eu; lia]). clear - W5 Eu. lia. }
        rewrite <- Eu in Gn |- *.
        exists nx. split; [rewrite (E10 W0), B2; exact Gn|]. destruct (Nat.eqb_spec m c) as [Z|_]; [clear - Z K1; lia|]. now rewrite N.add_0_r.
    + destruct (step_far p Hf Hp HH Hk H3 HU sks seed Hsks Hseed idx c v Hc ltac:(clear - HmU K1; lia) Lidx' A1 NFc) as (v' & E1 & (E2 & E2' & E2'') & E3 & E4 & E5).
      { destruct (Nat.eqb_spec c 0) as [E0|_]; [clear - E0 Hc0; lia|exact Lc]. } { exact Hsw. }
      exists v'. split; [exact E1|]. apply (advance c v v' Hc HJ E2 E2').
      * rewrite Hb. exact E2''. * rewrite E3. exact A2. * rewrite E4. exact A3.
      * intros _. rewrite E3. destruct (Nat.ltb_spec c m) as [Z|_]; [clear - Z K1; lia|reflexivity].
      * intros i _ _. now rewrite E3.
      * right. split; [clear - K1; lia|]. split; [rewrite E5; exact K2|]. intros Z. clear - Z HmU. lia.
      * intros Eu _ G3. clear - Eu G3 K1 HmU. lia.
Qed.

Lemma loop_to c1 v c : J c1 v -> c1 <= c -> c <= d -> (forall i, c1 <= i -> i < c -> bad i = false) -> (forall i, c1 <= i -> i < c -> i < m -> i <= U) ->
  exists v', forN (c - c1) c1 (mt_layer_step p idx sks seed) v = Ok v' /\ J c v'.
Proof.
  intros HJ H1 Hcd Hbad Hlow. induction c as [|c IH]; [replace c1 with 0 in * by (clear - H1; lia); exists v; split; [reflexivity|exact HJ]|].
  destruct (Nat.eq_dec c1 (S c)) as [->|Hne]; [rewrite Nat.sub_diag; exists v; split; [reflexivity|exact HJ]|].
  destruct IH as (v1 & E1 & E2); [clear - H1 Hne; lia|clear - Hcd; lia|intros i G1 G2; apply Hbad; [exact G1|clear - G2; lia]|intros i G1 G2; apply Hlow; [exact G1|clear - G2; lia]|].
  destruct (loop_step c v1) as (v2 & E3 & E4); [clear - Hcd; lia|apply Hbad; clear - H1 Hne; lia|intros Z; apply Hlow; [clear - H1 Hne; lia|clear; lia|exact Z]|exact E2|].
  exists v2. split; [|exact E4]. replace (S c - c1) with (S (c - c1)) by (clear - H1 Hne; lia). rewrite forN_snoc, E1.
  replace (c1 + (c - c1)) with c by (clear - H1 Hne; lia). exact E3.
Qed.
End Loop.

Lemma start_J idx m bad W X ss0 ws0 ots a : length ss0 = nstates p -> length ws0 = (d - 1) * wsig -> a3 ots = 0%N ->
  J idx m bad W X ss0 ws0 0 (mkMt ss0 ws0 a ots (N.of_nat U) (-1)).
Proof.
  intros I1 I2 Ho. split; [exact I1|]. split; [exact I2|]. split; [exact Ho|]. split; [intros i Z; clear - Z; lia|]. split; [auto|]. split; [reflexivity|].
  split; [left; split; [clear; lia|split; [reflexivity|cbn [mv_updates Nat.leb]; now rewrite Nat.sub_0_r]]|]. intros Z. clear - Z. lia.
Qed.

(** the exactness of the next tree of layer U+1 *)
Definition behind (idx : N) (ss : list bds_state) : Prop :=
  forall nx, nth_error ss (d + (U + 1)) = Some nx -> st_next_leaf nx = N.of_nat (dig idx (U + 1)).

Lemma mt_update idx ss ws ots a : (idx + 1 < 2 ^ N.of_nat (H * d))%N -> d <= U + 2 \/ (idx + 1 < 2 ^ N.of_nat (H * (U + 2)))%N ->
  mtinv idx ss ws -> a3 ots = 0%N -> sub_ctx 0 (hi idx 1 + 1) a ->
  exists ss2 v,
    (if (u64 ((1 + hi idx 1) * 2 ^ N.of_nat H + N.of_nat (dig idx 0)) <? 2 ^ N.of_nat (full_height p))%N
     then let* nx := rdc ss d in let* nx := bds_state_update p nx sks seed a in wrc ss d nx else Ok ss) = Ok ss2 /\
    forN d 0 (mt_layer_step p idx sks seed) (mkMt ss2 ws a ots (N.of_nat U) (-1)) = Ok v /\
    mtinv (idx + 1) (mv_ss v) (mv_ws v) /\
    (H <= 5 -> U + 2 < d -> behind idx ss -> behind (idx + 1) (mv_ss v)).
Proof.
  intros Lidx Hwin (I1 & I2 & I3 & I4) Ho Ha. destruct (carry H idx d Lidx) as (m & Hm & F & NF).
  assert (HmU : m <= U + 1) by (destruct Hwin as [Hw|Hw]; [clear - Hm Hw; lia|exact (up_same_window idx m Hw F)]).
  assert (Lidx' : (idx < 2 ^ N.of_nat (H * d))%N) by (clear - Lidx; lia).
  destruct (pre_update idx ss a Lidx' I1 (I3 0 ltac:(clear - Hm; lia)) Ha) as (ss2 & P1 & P2 & P3 & P4).
  rewrite I1 in P2.
  assert (Hgood : forall i, i < d -> false = false -> layer (if i =? 0 then 1 else 0) idx i ss2).
  { intros i Hi _. destruct (Nat.eqb_spec i 0) as [->|Hi0]; [exact P3|]. apply (layer_frame p Hf sks seed 0 idx i ss); [apply P4; clear - Hi; lia|apply P4; clear - Hi0; lia|now apply I3]. }
  destruct (loop_to idx m (fun _ => false) weak [] ss2 ws Lidx Hm F NF Hgood weak_frame 0 _ d (start_J idx m (fun _ => false) weak [] ss2 ws ots a P2 I2 Ho)) as (v & E1 & (G1 & G2 & _ & G4 & _ & G6 & _ & G8)).
  { apply Nat.le_0_l. } { apply Nat.le_refl. } { reflexivity. } { intros i _ _ Z. clear - Z HmU. lia. }
  rewrite Nat.sub_0_r in E1.
  exists ss2, v. split; [exact P1|]. split; [exact E1|]. split.
  - split; [exact G1|]. split; [exact G2|]. split; [intros i Hi; now apply (G4 i Hi)|].
    intros i Hi. rewrite (G6 i Hi). destruct (Nat.ltb_spec i d) as [_|Z]; [|clear - Z Hi; lia]. cbn [andb].
    destruct (Nat.ltb_spec i m) as [_|Z]; [reflexivity|]. rewrite (I4 i Hi). symmetry. now apply (up_same idx m).
  - intros H5 Hd Hbe. destruct Hwin as [Hw|Hw]; [clear - Hw Hd; lia|].
    assert (Ld : d + (U + 1) < length ss2) by (rewrite P2; unfold nstates; clear - Hd; lia).
    destruct (nth_error ss2 (d + (U + 1))) as [nx|] eqn:En; [|apply nth_error_None in En; clear - En Ld; lia].
    assert (En' : nth_error ss (d + (U + 1)) = Some nx) by (rewrite <- P4 by (clear; lia); exact En).
    pose proof (Hbe nx En') as Eb. pose proof (dig_lt H idx (U + 1)) as Dl.
    destruct (G8 ltac:(clear - Hd; lia) eq_refl HmU H5) with (nx := nx) as (nx' & B1 & B2); [|exact En|rewrite Eb, pBn; clear - Dl; lia|].
    { intros i I1' I2'. unfold ProofMt2.ex_next.
      assert (A1 : (hi idx (S i) < 2 ^ N.of_nat (H * (U + 2 - S i)))%N) by (apply hi_lt; [clear - Hw; lia|clear - I2'; lia]).
      assert (A2 : (2 ^ N.of_nat (H * (U + 2 - S i)) < 2 ^ N.of_nat (H * (d - 1 - i)))%N).
      { apply N.pow_lt_mono_r; [reflexivity|]. assert (Z : H * (U + 2 - S i) < H * (d - 1 - i)) by (apply Nat.mul_lt_mono_pos_l; [clear - H3; lia|clear - Hd I2'; lia]). clear - Z. lia. }
      clear - A1 A2. lia. }
    intros nx0 Hn0. assert (nx0 = nx') by congruence. subst nx0. rewrite B2, Eb.
    destruct (Nat.eqb_spec m (U + 1)) as [->|Hne].
    + destruct (dig_next H idx (U + 1) F NF) as [D1 _]. rewrite D1. clear. lia.
    + assert (NF1 : ~ full idx (U + 1)) by (apply (not_full_up H idx (S m)); [clear - HmU Hne; lia|exact NF]). rewrite (dig_same H idx (U + 1) NF1). clear. lia.
Qed.
End Mt.
