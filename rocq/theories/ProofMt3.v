(** The three cases of a layer in the update loop of the multi-tree signing function. *)
From Coq Require Import ZArith.
From Verif Require Import Base ModelUtils ModelParams ModelHash ModelWots ModelCommons ModelCoreFast SpecRfc Lib ProofUtils ProofHash ProofWots ProofCommons ProofTree ProofCore ProofSched ProofBds1 ProofBds2 ProofBds3 ProofBds4 ProofFast1 ProofFast2 ProofMt1 ProofMt2.

Lemma pow2_gt i : i < 2 ^ i.
Proof. apply Nat.pow_gt_lin_r. lia. Qed.
Lemma rest_zero u i a c : u <= i - a * c -> 1 <= a -> i <= c -> u = 0.
Proof. intros L La Lc. assert (1 * c <= a * c) by (apply Nat.mul_le_mono_r; exact La). lia. Qed.
Lemma rest_step u i a c w dl : u <= i - a * c -> a * dl <= w -> u - w <= i - a * (c + dl).
Proof. rewrite Nat.mul_add_distr_l. lia. Qed.
(** enough opportunities: the next tree of a layer is complete when it is needed *)
Lemma complete_arith U i B e : 1 <= i -> i <= U -> 1 <= B ->
  (U + 1 - i) * (2 ^ i * (B - 1) + 2 ^ i) <= (U + 1 - i) * e + U * (B - 1) -> B <= e.
Proof.
  intros Hi HiU HB L. destruct (Nat.le_gt_cases B e) as [|C]; [assumption|exfalso].
  set (a := U + 1 - i) in *. assert (Ha : a + i = U + 1) by (unfold a; lia). assert (Ha1 : 1 <= a) by lia. clearbody a.
  assert (E1 : 2 ^ i * (B - 1) + 2 ^ i = 2 ^ i * B) by (replace B with (B - 1 + 1) at 2 by lia; lia). rewrite E1 in L. clear E1.
  pose proof (pow2_gt i) as Hp.
  assert (Z1 : a * ((i + 1) * B) <= a * (2 ^ i * B)) by (apply Nat.mul_le_mono_l, Nat.mul_le_mono_r; lia).
  assert (Z2 : a * e <= a * (B - 1)) by (apply Nat.mul_le_mono_l; lia).
  assert (Z3 : U <= a * i) by (clear - Ha Ha1 Hi; nia).
  assert (Z4 : a * ((i + 1) * B) <= a * (B - 1) + U * (B - 1)) by lia.
  assert (Z5 : U * (B - 1) <= a * i * (B - 1)) by (apply Nat.mul_le_mono_r; exact Z3).
  assert (Z6 : a * ((i + 1) * B) = a * (B - 1) + a * i * (B - 1) + a * (i + 1)) by (replace B with (B - 1 + 1) at 1 by lia; ring).
  assert (Z7 : 1 * 1 <= a * (i + 1)) by (apply Nat.mul_le_mono; [exact Ha1|clear; lia]). clear - Z4 Z5 Z6 Z7. lia.
Qed.

Section Mt.
Context {E : Env}.
Variable p : xmss_params.
Variable Hf : bytes -> bytes.
Hypothesis Hp : params_ok p.
Hypothesis HH : hash_total p Hf.
Notation P := (sp_of p Hf).
Notation n := (p_n p).
Notation H := (tree_height p).
Notation k := (bds_k p).
Notation thc := (thcount p).
Notation wsig := (wots_sig_bytes p).
Notation d := (p_d p).
Hypothesis Hk : k < H.
Hypothesis H3 : 3 <= H.
Notation U := ((H - k) / 2).
Hypothesis HU : Nat.min thc (H - 2) <= 2 * U.
Variables (sks seed : bytes).
Hypothesis Hsks : length sks = n.
Hypothesis Hseed : length seed = n.
Notation dig := (dig H).
Notation hi := (hi H).
Notation full := (full H).
Notation cnt := (cnt H).
Notation A := (A p).
Notation layer := (layer p Hf sks seed).
Notation ex_next := (ex_next p).
Notation allgood := (allgood H).

Let H2 : H <> 2.
Proof. clear - H3; lia. Qed.
Let H30 : H <= 30.
Proof. pose proof (po_th p Hp). lia. Qed.
Let Hh : full_height p = H * d.
Proof. rewrite (po_h p Hp). apply Nat.mul_comm. Qed.
Let U128 : U < 128.
Proof. pose proof (po_th p Hp) as X. apply Nat.div_lt_upper_bound; clear - X; lia. Qed.

(** what a layer step guarantees besides the layer invariant *)
Definition stepped (idx : N) (i : nat) (v v' : mt_vars) : Prop :=
  length (mv_ss v') = length (mv_ss v) /\ (forall j, j <> i -> j <> d + i -> nth_error (mv_ss v') j = nth_error (mv_ss v) j) /\
  layer 0 (idx + 1) i (mv_ss v').

Lemma ex_next_same idx i : ~ full idx (S i) -> ex_next (idx + 1) i <-> ex_next idx i.
Proof. intros F. unfold ProofMt2.ex_next. now rewrite (proj2 (hi_step H idx (S i)) F). Qed.

(** a layer that neither advances nor changes its tree *)
Lemma step_other z idx i v w : 0 < i -> i < d -> (idx < 2 ^ N.of_nat (H * d))%N -> length (mv_ss v) = nstates p -> ~ full idx i ->
  layer z idx i (mv_ss v) -> mv_updates v = N.of_nat w -> w <= U -> (allgood idx i = true -> A i <= w) -> (Z.of_nat i <> mv_swap v + 1)%Z ->
  exists v' w', mt_layer_step p idx sks seed i v = Ok v' /\ stepped idx i v v' /\ mv_ws v' = mv_ws v /\ mv_ots v' = mv_ots v /\ mv_swap v' = mv_swap v /\
    mv_updates v' = N.of_nat w' /\ w' <= U /\ (allgood idx (S i) = true -> A (S i) <= w') /\
    (ex_next idx i -> w' <= w - 1) /\ (w = 0 -> nth_error (mv_ss v') (d + i) = nth_error (mv_ss v) (d + i)).
Proof.
  intros Hi0 Hi Lidx Lss NF (s & f & u & base & L1 & (C1 & C2 & C3 & C4 & C5 & C6) & L3) Ew Hw Hg Hsw.
  assert (NF' : ~ full idx (S i)) by (apply (not_full_up H idx i (S i)); [lia|exact NF]).
  rewrite (step_nofull p Hp Hk H3 HU sks seed Hsks Hseed idx i v Hi NF'). cbv zeta.
  rewrite (rdc_some _ _ s L1), bind_ok. destruct (Z.eqb_spec (Z.of_nat i) (mv_swap v + 1)) as [?|_]; [contradiction|]. rewrite bind_ok, Ew.
  set (dl := if allgood idx i then 1 else 0).
  destruct (tail_spec p Hf Hp HH Hk H3 HU sks seed Hsks Hseed idx i (mv_ss v) s (dig idx i) f u base w
    (set_tree_addr (set_layer_addr (mv_addr v) (N.of_nat i)) (hi idx (S i))) (mv_ws v) (mv_ots v) (mv_swap v)
    (2 ^ i * dig idx i + cnt idx i) (wk H thc (dig idx i)) dl)
    as (s2 & f2 & u2 & r & ss' & a' & T1 & T2 & T3 & T4 & T5 & T6 & T7 & T8 & T9 & T10 & T11 & _ & T13 & T14 & T15).
  { exact Hi. } { exact Lidx. } { exact Lss. } { apply sub_tree; reflexivity. } { exact C1. } { exact C2. } { exact C3. }
  { clear - Hw U128; lia. }
  { intros HSi. destruct (L3 HSi) as (nx & N1 & N2 & N3 & N4). exists nx. split; [exact N1|]. split; [exact N2|]. split; [exact N3|].
    intros Hex. destruct (N4 Hex) as (e & Q1 & Q2 & Q3). exists e. split; [exact Q1|]. split; [exact Q2|]. intros _.
    unfold link in Q3. destruct (Nat.eqb_spec i 0) as [?|_]; [clear - Hi0 e0; lia|]. exact Q3. }
  { unfold dl; destruct (allgood idx i); clear; lia. }
  { unfold dl; destruct (allgood idx i); [rewrite Nat.mul_1_r; now apply Hg|rewrite Nat.mul_0_r; apply Nat.le_0_l]. }
  eexists. exists r. split; [exact T1|]. cbn [mv_ss mv_ws mv_ots mv_swap mv_updates].
  assert (Hcnt : cnt (idx + 1) i = cnt idx i + dl) by (apply cnt_step; assumption).
  assert (Htf : goodb H (dig idx i) = true -> tw thc f = 0).
  { intros G. unfold goodb in G. apply orb_prop in G as [G|G]; apply Nat.eqb_eq in G; apply tw_none.
    - exact (C5 G).
    - apply (sinv_end H thc U HU _ _ _ C1). rewrite G. clear. lia. }
  split; [|split; [reflexivity|split; [reflexivity|split; [reflexivity|split; [reflexivity|split; [clear - T10 Hw; lia|split; [|split; [exact (T14 Hi0)|exact T15]]]]]]]].
  - split; [exact T2|]. split; [exact T4|]. cbn [mv_ss]. exists s2, f2, u2, base. split; [exact T3|].
    unfold cur. rewrite (dig_same H idx i NF), (proj2 (hi_step H idx (S i)) NF'), Hcnt. split.
    + split; [exact T5|]. split; [exact C2|]. split; [exact T6|]. split; [rewrite T7; exact C4|]. split.
      * intros Q. apply (tw_zero H thc U HU _ _ _ T5). rewrite (tw_none thc f (C5 Q)) in T9. clear - T9; lia.
      * destruct C6 as [C6|[C6 C6']].
        -- left. apply (tw_zero H thc U HU _ _ _ T5). rewrite (tw_none thc f C6) in T9. clear - T9; lia.
        -- destruct T8 as [T8|T8]; [left; exact T8|right]. split; [exact C6|]. rewrite T8. apply rest_step; [exact C6'|].
           unfold dl; destruct (allgood idx i); [rewrite Nat.mul_1_r; now apply Hg|rewrite Nat.mul_0_r; apply Nat.le_0_l].
    + intros HSi. destruct (T13 Hi0 HSi) as (nx & N1 & N2 & N3 & N4). exists nx. split; [exact N1|]. unfold nxt. split; [exact N2|]. split; [exact N3|].
      rewrite (ex_next_same idx i NF'). intros Hex. destruct (N4 Hex) as (e & Q1 & Q2 & Q3). exists e. rewrite (proj2 (hi_step H idx (S i)) NF').
      split; [exact Q1|]. split; [exact Q2|]. unfold link. destruct (Nat.eqb_spec i 0) as [?|_]; [clear - Hi0 e0; lia|].
      rewrite (dig_same H idx i NF), Hcnt, Nat.add_assoc. exact Q3.
  - cbn [ProofMt1.allgood]. intros G. apply andb_prop in G as [G1 G2]. specialize (T11 (Htf G1)). specialize (Hg G2).
    unfold ProofMt2.A in *. destruct (i =? 0); clear - T11 Hg Hi0; lia.
Qed.

(** the layer of the carry: its traversal moves to the next leaf *)
Lemma round_u idx i u f : i <= U + 1 -> full idx i -> (forall j : nat, f j = None) \/ (i <= U /\ u <= i - A i * cnt idx i) -> u = 0 \/ forall j : nat, (f j : option nat) = None.
Proof.
  intros Hi F [C|[C1 C2]]; [right; exact C|left]. destruct i as [|i]; [clear - C2; cbn in C2; lia|].
  rewrite (cnt_full H H3) in C2 by (exact F || (clear; lia)). apply (rest_zero _ _ _ _ C2); [unfold ProofMt2.A; clear - C1; lia|].
  pose proof (pow2_gt (S i)) as G. clear - G; lia.
Qed.
Lemma step_round idx i v : i < d -> i <= U -> (idx < 2 ^ N.of_nat (H * d))%N -> length (mv_ss v) = nstates p -> full idx i -> ~ full idx (S i) ->
  layer (if i =? 0 then 1 else 0) idx i (mv_ss v) -> mv_updates v = N.of_nat (U - i) -> (Z.of_nat i = mv_swap v + 1)%Z ->
  exists v' w', mt_layer_step p idx sks seed i v = Ok v' /\ stepped idx i v v' /\ mv_ws v' = mv_ws v /\ mv_ots v' = mv_ots v /\ mv_swap v' = mv_swap v /\
    mv_updates v' = N.of_nat w' /\ w' <= U - i /\ (allgood idx (S i) = true -> A (S i) <= w').
Proof.
  intros Hi HiU Lidx Lss F NF' (s & f & u & base & L1 & (C1 & C2 & C3 & C4 & C5 & C6) & L3) Ew Hsw.
  rewrite (step_nofull p Hp Hk H3 HU sks seed Hsks Hseed idx i v Hi NF'). cbv zeta.
  rewrite (rdc_some _ _ s L1), bind_ok. destruct (Z.eqb_spec (Z.of_nat i) (mv_swap v + 1)) as [_|?]; [|contradiction].
  destruct (dig_next H idx i F NF') as [Dn Dl]. set (q := dig idx i) in *.
  assert (Hu : u = 0 \/ forall j, f j = None) by (apply (round_u idx i); [clear - HiU; lia|exact F|exact C6]).
  set (a := set_tree_addr (set_layer_addr (mv_addr v) (N.of_nat i)) (hi idx (S i))).
  assert (Hsub : sub_ctx (N.of_nat i) (hi idx (S i)) a) by (apply sub_tree; reflexivity).
  destruct (bds_round_spec p Hf Hp HH Hk U HU sks seed (N.of_nat i) (hi idx (S i)) Hsks Hseed q u f base s a ltac:(clear - H3; lia) C1 Hu Dl C3 Hsub) as (s1 & R1 & R2 & R3).
  rewrite R1, bind_ok, Ew. pose proof (reinit_sinv H thc U HU q u f C1 Hu) as R4. pose proof (tw_reinit H thc U HU q f) as R5.
  set (f1 := reinit H thc (q + 1) f) in *. clearbody f1.
  destruct (tail_spec p Hf Hp HH Hk H3 HU sks seed Hsks Hseed idx i (mv_ss v) s1 (q + 1) f1 U base (U - i) a (mv_ws v) (mv_ots v) (mv_swap v)
    (2 ^ i * (q + 1)) (wk H thc (q + 1)) 0)
    as (s2 & f2 & u2 & r & ss' & a' & T1 & T2 & T3 & T4 & T5 & T6 & T7 & T8 & T9 & T10 & T11 & T12 & T13 & _).
  { exact Hi. } { exact Lidx. } { exact Lss. } { exact Hsub. } { exact R4. } { exact C2. } { exact R2. }
  { clear - U128; lia. }
  { intros HSi. destruct (L3 HSi) as (nx & N1 & N2 & N3 & N4). exists nx. split; [exact N1|]. split; [exact N2|]. split; [exact N3|].
    intros Hex. destruct (N4 Hex) as (e & Q1 & Q2 & Q3). exists e. split; [exact Q1|]. split; [exact Q2|]. intros Hi0.
    unfold link in Q3. destruct (Nat.eqb_spec i 0) as [?|_]; [clear - Hi0 e0; lia|]. destruct Q3 as [Q3|Q3]; [left; exact Q3|right].
    rewrite (cnt_full H H3) in Q3 by (exact F || exact Hi0). fold q in Q3.
    replace (2 ^ i * (q + 1)) with (2 ^ i * q + 2 ^ i) by (clear; lia).
    set (X := A i * (2 ^ i * q + 2 ^ i)) in *. set (Y := A i * e) in *. clear - Q3 R5. lia. }
  { clear; lia. } { rewrite Nat.mul_0_r. apply Nat.le_0_l. }
  eexists. exists r. split; [exact T1|]. cbn [mv_ss mv_ws mv_ots mv_swap mv_updates].
  split; [|split; [reflexivity|split; [reflexivity|split; [reflexivity|split; [reflexivity|split; [exact T10|]]]]]].
  - split; [exact T2|]. split; [exact T4|]. cbn [mv_ss]. exists s2, f2, u2, base. split; [exact T3|].
    unfold cur. rewrite Dn, (proj2 (hi_step H idx (S i)) NF'), (cnt_after_full H H3 idx i F). split.
    + split; [exact T5|]. split; [exact C2|]. split; [exact T6|]. split; [rewrite T7, R3; exact C4|]. split; [clear; lia|].
      destruct T8 as [T8|T8]; [left; exact T8|right]. split; [exact HiU|]. rewrite Nat.mul_0_r, T8. clear - HiU. lia.
    + intros HSi. destruct i as [|i].
      * destruct (L3 HSi) as (nx & N1 & N2 & N3 & N4). exists nx. rewrite (T12 eq_refl). split; [exact N1|]. unfold nxt. split; [exact N2|]. split; [exact N3|].
        rewrite (ex_next_same idx 0 NF'). intros Hex. destruct (N4 Hex) as (e & Q1 & Q2 & Q3). exists e. rewrite (proj2 (hi_step H idx 1) NF').
        split; [exact Q1|]. split; [exact Q2|]. unfold link in *. cbn [Nat.eqb] in *. rewrite Dn. fold q in Q3. clear - Q3. lia.
      * destruct (T13 ltac:(clear; lia) HSi) as (nx & N1 & N2 & N3 & N4). exists nx. split; [exact N1|]. unfold nxt. split; [exact N2|]. split; [exact N3|].
        rewrite (ex_next_same idx (S i) NF'). intros Hex. destruct (N4 Hex) as (e & Q1 & Q2 & Q3). exists e. rewrite (proj2 (hi_step H idx (S (S i))) NF').
        split; [exact Q1|]. split; [exact Q2|]. unfold link. destruct (Nat.eqb_spec (S i) 0) as [?|_]; [discriminate|].
        rewrite Dn, (cnt_after_full H H3 idx (S i) F). exact Q3.
  - destruct i as [|i].
    + cbn [ProofMt1.allgood]. rewrite andb_true_r. intros G. fold q in G.
      assert (Hz : tw thc f1 = 0).
      { unfold goodb in G. apply orb_prop in G as [G|G]; apply Nat.eqb_eq in G.
        - rewrite G in R5. cbn [Nat.add] in R5. rewrite (wk_0 H thc U HU), (wk_1 H thc U HU), (tw_none thc f (C5 G)) in R5. clear - R5; lia.
        - apply tw_none. apply (sinv_end H thc U HU _ _ _ R4). rewrite G. clear. lia. }
      specialize (T11 Hz). cbn [Nat.eqb] in T11. unfold ProofMt2.A. clear - T11. lia.
    + intros G. cbn [ProofMt1.allgood] in G. apply andb_prop in G as [_ G]. change (allgood idx (S i) = true) in G. rewrite (full_not_good H H3) in G by (exact F || (clear; lia)). discriminate.
Qed.
(** one more leaf of the next tree (or nothing if it is complete) *)
Lemma next_update idx i nx e a : shape p nx -> in_range nx -> e <= 2 ^ H -> partial_tree p Hf sks seed (N.of_nat i) (hi idx (S i) + 1) (N.of_nat e) nx ->
  sub_ctx (N.of_nat i) (hi idx (S i) + 1) a ->
  exists nx' e', bds_state_update p nx sks seed a = Ok nx' /\ shape p nx' /\ in_range nx' /\ e' <= 2 ^ H /\
     partial_tree p Hf sks seed (N.of_nat i) (hi idx (S i) + 1) (N.of_nat e') nx' /\ (e < 2 ^ H -> e' = e + 1).
Proof.
  intros X2 X3 Q1 Q2 Hsub. destruct (Nat.eq_dec e (2 ^ H)) as [->|Hne].
  - exists nx, (2 ^ H). split; [|split; [exact X2|split; [exact X3|split; [apply Nat.le_refl|split; [exact Q2|clear; lia]]]]].
    apply (update_full p Hp Hk sks seed Hsks Hseed). rewrite (pt_next _ _ _ _ _ _ _ _ Q2). now rewrite pBn.
  - assert (Lt : e < 2 ^ H) by (clear - Hne Q1; lia).
    destruct (bds_state_update_spec p Hf Hp HH Hk sks seed (N.of_nat i) (hi idx (S i) + 1) Hsks Hseed (N.of_nat e) nx a) as (nx' & Z1 & Z2 & Z3 & Z4).
    + exact H2. + rewrite pBn; clear - Lt; lia. + exact Q2. + exact Hsub.
    + exists nx', (e + 1). replace (N.of_nat (e + 1)) with (N.of_nat e + 1)%N by (clear; lia). split; [exact Z1|].
      split; [exact (pt_shape _ _ _ _ _ _ _ _ Z2)|]. split; [|split; [clear - Lt; lia|split; [exact Z2|reflexivity]]].
      apply (range_scal nx nx' X3 Z4).
      * rewrite (pt_off _ _ _ _ _ _ _ _ Z2). eapply N.le_lt_trans; [apply N2len, bst_length|]. change (2 ^ 32)%N with 4294967296%N. clear - H30; lia.
      * rewrite (pt_next _ _ _ _ _ _ _ _ Z2). assert (Le : (N.of_nat e + 1 <= 2 ^ N.of_nat H)%N) by (rewrite pBn; clear - Lt; lia).
        eapply N.le_lt_trans; [exact Le|]. apply N.pow_lt_mono_r; clear - H30; lia.
Qed.

(** a layer's updates when the update counter has wrapped, or when it has nothing to do *)
Definition some_next (idx : N) (i : nat) (ss : list bds_state) : Prop :=
  S i < d -> exists nx, nth_error ss (d + i) = Some nx /\ shape p nx /\ in_range nx /\
    (ex_next idx i -> exists e, e <= 2 ^ H /\ partial_tree p Hf sks seed (N.of_nat i) (hi idx (S i) + 1) (N.of_nat e) nx).
Lemma tail_any idx i ss s1 q f1 u1 base x a ws ots swap : i < d -> (idx < 2 ^ N.of_nat (H * d))%N -> length ss = nstates p ->
  sub_ctx (N.of_nat i) (hi idx (S i)) a -> sinv H thc U q u1 f1 -> base_ok p base -> trav p Hf sks seed (N.of_nat i) (hi idx (S i)) q f1 base s1 ->
  (tw thc f1 < N.to_nat x \/ x = 0%N /\ forall j, f1 j = None) -> some_next idx i ss ->
  exists s2 f2 y ss' a',
    tail_code p sks seed idx i s1 x ss a ws ots swap = Ok (mkMt ss' ws a' ots y swap) /\
    length ss' = length ss /\ nth_error ss' i = Some s2 /\ (forall j, j <> i -> j <> d + i -> nth_error ss' j = nth_error ss j) /\
    sinv H thc U q 0 f2 /\ trav p Hf sks seed (N.of_nat i) (hi idx (S i)) q f2 base s2 /\ st_next_leaf s2 = st_next_leaf s1 /\
    (forall j, f2 j = None) /\ some_next idx i ss' /\
    (0 < i -> ex_next idx i -> (0 < via_char (x - N.of_nat (tw thc f1)))%N -> forall nx, nth_error ss (d + i) = Some nx -> (st_next_leaf nx < 2 ^ N.of_nat H)%N ->
      exists nx', nth_error ss' (d + i) = Some nx' /\ (st_next_leaf nx' = st_next_leaf nx + 1)%N).
Proof.
  intros Hi Lidx Lss Hsub Hinv Hb Ht Hx Hnx.
  assert (Hu : exists s2 f2, bds_treehash_update p s1 x sks seed a = Ok (s2, via_char (x - N.of_nat (tw thc f1))) /\
    sinv H thc U q 0 f2 /\ trav p Hf sks seed (N.of_nat i) (hi idx (S i)) q f2 base s2 /\ st_next_leaf s2 = st_next_leaf s1 /\ (forall j, f2 j = None)).
  { destruct Hx as [Hx|[-> Hx]].
    - destruct (trav_update_all p Hf Hp HH Hk HU sks seed (N.of_nat i) (hi idx (S i)) Hsks Hseed q u1 f1 base s1 x a Hinv Hb Ht Hsub Hx) as (s2 & f2 & r & B1 & B2 & B3 & B4 & B5 & ->).
      exists s2, f2. auto.
    - exists s1, f1. split; [|split; [|auto]].
      + rewrite (tw_none thc f1 Hx). reflexivity.
      + constructor; intros; rewrite Hx in *; discriminate. }
  destruct Hu as (s2 & f2 & B1 & B2 & B3 & B4 & B5). set (r := via_char _) in *. clearbody r. clear Hx.
  unfold tail_code. rewrite B1, bind_ok. cbv beta iota zeta. assert (Lns : i < length ss) by (rewrite Lss; unfold nstates; clear - Hi; lia).
  rewrite wrc_ok, bind_ok by exact Lns.
  rewrite (shl_ull (full_height p - H * i)) by (pose proof (po_h64 p Hp) as X; clear - X; lia). rewrite bind_ok.
  set (ss1 := upd ss i s2).
  assert (L1 : length ss1 = length ss) by apply upd_length.
  assert (N1 : nth_error ss1 i = Some s2) by (apply nth_error_upd_same; exact Lns).
  assert (F1 : forall j, j <> i -> nth_error ss1 j = nth_error ss j) by (intros j Hj; apply nth_error_upd_other; auto).
  set (a' := set_tree_addr a (hi idx (S i) + 1)).
  assert (Hstay : (0 < i -> ex_next idx i -> r = 0%N) ->
    exists s3 f3 y ss' a3, Ok (mkMt ss1 ws a' ots r swap) = Ok (mkMt ss' ws a3 ots y swap) /\
      length ss' = length ss /\ nth_error ss' i = Some s3 /\ (forall j, j <> i -> j <> d + i -> nth_error ss' j = nth_error ss j) /\
      sinv H thc U q 0 f3 /\ trav p Hf sks seed (N.of_nat i) (hi idx (S i)) q f3 base s3 /\ st_next_leaf s3 = st_next_leaf s1 /\
      (forall j, f3 j = None) /\ some_next idx i ss' /\
      (0 < i -> ex_next idx i -> (0 < r)%N -> forall nx, nth_error ss (d + i) = Some nx -> (st_next_leaf nx < 2 ^ N.of_nat H)%N ->
        exists nx', nth_error ss' (d + i) = Some nx' /\ (st_next_leaf nx' = st_next_leaf nx + 1)%N)).
  { intros Hrz. exists s2, f2, r, ss1, a'. split; [reflexivity|]. split; [exact L1|]. split; [exact N1|]. split; [intros j J1 J2; now apply F1|].
    split; [exact B2|]. split; [exact B3|]. split; [exact B4|]. split; [exact B5|]. split.
    - intros HSi. destruct (Hnx HSi) as (nx & X1 & X2). exists nx. split; [rewrite F1 by (clear - HSi; lia); exact X1|exact X2].
    - intros G1 G2 G3. rewrite (Hrz G1 G2) in G3. clear - G3. lia. }
  destruct (_ <? _)%N eqn:Ee.
  2:{ apply Hstay. intros _ Hex. apply (exists_test p Hp Hk H3 HU sks seed Hsks Hseed idx i Hi Lidx) in Hex. rewrite Hex in Ee. discriminate. }
  assert (Hex : ex_next idx i) by (now apply (exists_test p Hp Hk H3 HU sks seed Hsks Hseed idx i Hi Lidx)).
  pose proof (ex_next_S p Hp Hk H3 HU sks seed Hsks Hseed idx i Hi Hex) as HSi.
  destruct ((0 <? i) && (0 <? r)%N) eqn:Eg.
  2:{ apply Hstay. intros Hi0 _. apply andb_false_iff in Eg as [Eg|Eg]; [apply Nat.ltb_ge in Eg; clear - Eg Hi0; lia|apply N.ltb_ge in Eg; clear - Eg; lia]. }
  apply andb_prop in Eg as [Ei0 Er0]. apply Nat.ltb_lt in Ei0. apply N.ltb_lt in Er0. clear Hstay.
  destruct (Hnx HSi) as (nx & X1 & X2 & X3 & X4). destruct (X4 Hex) as (e & Y1 & Y2).
  assert (X1' : nth_error ss1 (d + i) = Some nx) by (rewrite F1 by (clear - HSi; lia); exact X1).
  rewrite (rdc_some _ _ nx X1'), bind_ok.
  assert (Hnle : (st_next_leaf nx <? 2 ^ N.of_nat (full_height p))%N = true).
  { apply N.ltb_lt. rewrite (pt_next _ _ _ _ _ _ _ _ Y2), Hh.
    assert (Le : (N.of_nat e <= 2 ^ N.of_nat H)%N) by (rewrite pBn; clear - Y1; lia).
    eapply N.le_lt_trans; [exact Le|]. apply N.pow_lt_mono_r; [reflexivity|]. assert (M2 : H * 2 <= H * d) by (apply Nat.mul_le_mono_l; clear - HSi Ei0; lia). clear - M2 H3; lia. }
  rewrite Hnle.
  destruct (next_update idx i nx e a' X2 X3 Y1 Y2 (sub_tree _ _ _ (proj1 Hsub))) as (nx' & e' & Z1 & Z2 & Z3 & Z4 & Z5 & Z6).
  assert (Ld : d + i < length ss1) by (rewrite L1, Lss; unfold nstates; clear - HSi; lia).
  rewrite Z1, bind_ok. rewrite wrc_ok by exact Ld. rewrite bind_ok.
  exists s2, f2. eexists _, (upd ss1 (d + i) nx'), a'. split; [reflexivity|]. split; [rewrite upd_length; exact L1|].
  split; [rewrite nth_error_upd_other by (clear - HSi; lia); exact N1|].
  split; [intros j J1 J2; rewrite nth_error_upd_other by auto; now apply F1|].
  split; [exact B2|]. split; [exact B3|]. split; [exact B4|]. split; [exact B5|].
  assert (N2 : nth_error (upd ss1 (d + i) nx') (d + i) = Some nx') by (apply nth_error_upd_same; exact Ld).
  split.
  - intros _. exists nx'. split; [exact N2|]. split; [exact Z2|]. split; [exact Z3|]. intros _. exists e'. auto.
  - intros _ _ _ nx0 Hnx0 Hlt. assert (nx0 = nx) by congruence. subst nx0. exists nx'. split; [exact N2|].
    rewrite (pt_next _ _ _ _ _ _ _ _ Y2) in Hlt |- *. rewrite (pt_next _ _ _ _ _ _ _ _ Z5). rewrite pBn in Hlt. rewrite Z6 by (clear - Hlt; lia). clear. lia.
Qed.

(** layers above the reach of the ordinary updates: no invariant but completeness *)
Lemma layer_far idx i s f u base ss : U < i -> nth_error ss i = Some s -> cur p Hf sks seed idx i f u base s -> some_next idx i ss -> layer 0 idx i ss.
Proof.
  intros Hu L1 C Hn. exists s, f, u, base. split; [exact L1|]. split; [exact C|]. intros HSi. destruct (Hn HSi) as (nx & X1 & X2 & X3 & X4).
  exists nx. split; [exact X1|]. split; [exact X2|]. split; [exact X3|]. intros Hex. destruct (X4 Hex) as (e & Y1 & Y2). exists e. split; [exact Y1|]. split; [exact Y2|].
  destruct C as (_ & _ & _ & _ & _ & C6). assert (Fn : forall j, f j = None) by (destruct C6 as [C6|[C6 _]]; [exact C6|clear - C6 Hu; lia]).
  unfold link. destruct (Nat.eqb_spec i 0) as [E0|_]; [clear - E0 Hu; lia|right]. rewrite (tw_none thc f Fn). unfold ProofMt2.A. replace (U + 1 - i) with 0 by (clear - Hu; lia). cbn [Nat.mul]. apply Nat.le_0_l.
Qed.
Lemma some_layer z idx i ss : layer z idx i ss -> some_next idx i ss.
Proof.
  intros (s & f & u & base & L1 & C & L3) HSi. destruct (L3 HSi) as (nx & X1 & X2 & X3 & X4). exists nx. split; [exact X1|]. split; [exact X2|]. split; [exact X3|].
  intros Hex. destruct (X4 Hex) as (e & Y1 & Y2 & _). exists e. auto.
Qed.
Lemma some_next_step idx i ss : ~ full idx (S i) -> some_next idx i ss -> some_next (idx + 1) i ss.
Proof.
  intros NF Hn HSi. destruct (Hn HSi) as (nx & X1 & X2 & X3 & X4). exists nx. split; [exact X1|]. split; [exact X2|]. split; [exact X3|].
  rewrite (ex_next_same idx i NF), (proj2 (hi_step H idx (S i)) NF). exact X4.
Qed.

(** the layer of the carry above that reach: the update counter has wrapped *)
Lemma tw_small (f : nat -> option nat) : (N.of_nat (tw thc f) < 2 ^ N.of_nat H)%N.
Proof.
  pose proof (tw_lt H thc U HU f) as G. assert (G1 : (N.of_nat (tw thc f) < 2 ^ N.of_nat thc)%N) by (rewrite (pBn thc); clear - G; lia).
  eapply N.lt_le_trans; [exact G1|]. apply N.pow_le_mono_r; [discriminate|]. unfold thcount. clear. lia.
Qed.
Lemma via_char_pos y : (2 ^ 32 - 64 <= y < 2 ^ 32)%N -> (0 < via_char y)%N.
Proof.
  intros Hy. unfold via_char. assert (Hm : (y mod 256 = y - (2 ^ 32 - 256))%N).
  { symmetry. apply (N.mod_unique y 256 (2 ^ 24 - 1)); [|]; change (2 ^ 32)%N with 4294967296%N in *; change (2 ^ 24)%N with 16777216%N; clear - Hy; lia. }
  rewrite Hm. destruct (_ <? _)%N eqn:E0; [apply N.ltb_lt in E0|]; change (2 ^ 32)%N with 4294967296%N in *; clear - Hy; lia.
Qed.
Lemma step_huge idx i v : i < d -> U < i -> (idx < 2 ^ N.of_nat (H * d))%N -> length (mv_ss v) = nstates p -> full idx i -> ~ full idx (S i) ->
  layer 0 idx i (mv_ss v) -> (2 ^ 31 <= mv_updates v)%N -> (Z.of_nat i = mv_swap v + 1)%Z ->
  exists v', mt_layer_step p idx sks seed i v = Ok v' /\ stepped idx i v v' /\ mv_ws v' = mv_ws v /\ mv_ots v' = mv_ots v /\ mv_swap v' = mv_swap v /\
    (H <= 5 -> (2 ^ 32 - 32 <= mv_updates v < 2 ^ 32)%N -> ex_next idx i -> forall nx, nth_error (mv_ss v) (d + i) = Some nx -> (st_next_leaf nx < 2 ^ N.of_nat H)%N ->
      exists nx', nth_error (mv_ss v') (d + i) = Some nx' /\ (st_next_leaf nx' = st_next_leaf nx + 1)%N).
Proof.
  intros Hi HiU Lidx Lss F NF' HL Ew Hsw. pose proof (some_layer _ _ _ _ HL) as Hsn.
  destruct HL as (s & f & u & base & L1 & (C1 & C2 & C3 & C4 & C5 & C6) & L3).
  rewrite (step_nofull p Hp Hk H3 HU sks seed Hsks Hseed idx i v Hi NF'). cbv zeta.
  rewrite (rdc_some _ _ s L1), bind_ok. destruct (Z.eqb_spec (Z.of_nat i) (mv_swap v + 1)) as [_|?]; [|contradiction].
  destruct (dig_next H idx i F NF') as [Dn Dl]. set (q := dig idx i) in *.
  assert (Fn : forall j, f j = None) by (destruct C6 as [C6|[C6 _]]; [exact C6|clear - C6 HiU; lia]).
  set (a := set_tree_addr (set_layer_addr (mv_addr v) (N.of_nat i)) (hi idx (S i))).
  assert (Hsub : sub_ctx (N.of_nat i) (hi idx (S i)) a) by (apply sub_tree; reflexivity).
  destruct (bds_round_spec p Hf Hp HH Hk U HU sks seed (N.of_nat i) (hi idx (S i)) Hsks Hseed q u f base s a ltac:(clear - H3; lia) C1 (or_intror Fn) Dl C3 Hsub) as (s1 & R1 & R2 & R3).
  rewrite R1, bind_ok. pose proof (reinit_sinv H thc U HU q u f C1 (or_intror Fn)) as R4.
  set (f1 := reinit H thc (q + 1) f) in *. clearbody f1.
  pose proof (tw_small f1) as G1.
  assert (G2 : (2 ^ N.of_nat H <= 2 ^ 30)%N) by (apply N.pow_le_mono_r; [discriminate|clear - H30; lia]).
  destruct (tail_any idx i (mv_ss v) s1 (q + 1) f1 U base (mv_updates v) a (mv_ws v) (mv_ots v) (mv_swap v)) as (s2 & f2 & y & ss' & a' & T1 & T2 & T3 & T4 & T5 & T6 & T7 & T8 & T9 & T10); try assumption.
  { left. change (2 ^ 31)%N with 2147483648%N in Ew. change (2 ^ 30)%N with 1073741824%N in G2. clear - Ew G1 G2. lia. }
  eexists. split; [exact T1|]. cbn [mv_ss mv_ws mv_ots mv_swap mv_updates].
  split; [|split; [reflexivity|split; [reflexivity|split; [reflexivity|]]]].
  - split; [exact T2|]. split; [exact T4|]. cbn [mv_ss].
    apply (layer_far (idx + 1) i s2 f2 0 base); [exact HiU|exact T3| |apply some_next_step; assumption].
    unfold cur. rewrite Dn, (proj2 (hi_step H idx (S i)) NF'). split; [exact T5|]. split; [exact C2|]. split; [exact T6|]. split; [rewrite T7, R3; exact C4|]. split; [intros _; exact T8|left; exact T8].
  - intros H5 Hup Hex nx Hnx Hlt. apply T10; try assumption; [clear - HiU; lia|]. apply via_char_pos.
    assert (G3 : (2 ^ N.of_nat H <= 2 ^ 5)%N) by (apply N.pow_le_mono_r; [discriminate|clear - H5; lia]).
    change (2 ^ 32)%N with 4294967296%N in *. change (2 ^ 5)%N with 32%N in G3. clear - Hup G1 G3. lia.
Qed.

(** a layer further up, whatever the update counter *)
Lemma step_far idx i v : i < d -> U < i -> (idx < 2 ^ N.of_nat (H * d))%N -> length (mv_ss v) = nstates p -> ~ full idx i ->
  layer 0 idx i (mv_ss v) -> (Z.of_nat i <> mv_swap v + 1)%Z ->
  exists v', mt_layer_step p idx sks seed i v = Ok v' /\ stepped idx i v v' /\ mv_ws v' = mv_ws v /\ mv_ots v' = mv_ots v /\ mv_swap v' = mv_swap v.
Proof.
  intros Hi HiU Lidx Lss NF HL Hsw. pose proof (some_layer _ _ _ _ HL) as Hsn.
  destruct HL as (s & f & u & base & L1 & (C1 & C2 & C3 & C4 & C5 & C6) & L3).
  assert (NF' : ~ full idx (S i)) by (apply (not_full_up H idx i (S i)); [clear; lia|exact NF]).
  rewrite (step_nofull p Hp Hk H3 HU sks seed Hsks Hseed idx i v Hi NF'). cbv zeta.
  rewrite (rdc_some _ _ s L1), bind_ok. destruct (Z.eqb_spec (Z.of_nat i) (mv_swap v + 1)) as [?|_]; [contradiction|]. rewrite bind_ok.
  assert (Fn : forall j, f j = None) by (destruct C6 as [C6|[C6 _]]; [exact C6|clear - C6 HiU; lia]).
  destruct (tail_any idx i (mv_ss v) s (dig idx i) f u base (mv_updates v) (set_tree_addr (set_layer_addr (mv_addr v) (N.of_nat i)) (hi idx (S i))) (mv_ws v) (mv_ots v) (mv_swap v))
    as (s2 & f2 & y & ss' & a' & T1 & T2 & T3 & T4 & T5 & T6 & T7 & T8 & T9 & T10); try assumption.
  { apply sub_tree; reflexivity. }
  { rewrite (tw_none thc f Fn). destruct (N.eq_dec (mv_updates v) 0) as [Z0|Z0]; [right; auto|left; clear - Z0; lia]. }
  eexists. split; [exact T1|]. cbn [mv_ss mv_ws mv_ots mv_swap mv_updates].
  split; [|repeat split; reflexivity].
  split; [exact T2|]. split; [exact T4|]. cbn [mv_ss].
  apply (layer_far (idx + 1) i s2 f2 0 base); [exact HiU|exact T3| |apply some_next_step; assumption].
  unfold cur. rewrite (dig_same H idx i NF), (proj2 (hi_step H idx (S i)) NF'). split; [exact T5|]. split; [exact C2|]. split; [exact T6|]. split; [rewrite T7; exact C4|]. split; [intros _; exact T8|left; exact T8].
Qed.
End Mt.
