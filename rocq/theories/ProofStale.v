(** The fast core with a traversal state that is one signature behind the index: the call returns. *)
From Coq Require Import ZArith.
From Verif Require Import Base ModelUtils ModelParams ModelHash ModelWots ModelCommons ModelCore ModelCoreFast SpecRfc Lib ProofUtils ProofHash ProofWots ProofCommons ProofTree ProofCore ProofSched ProofBds1 ProofBds2 ProofBds3 ProofBds4 ProofFast1 ProofFast2 ProofFast5 ProofApi ProofMt1 ProofMt2 ProofMt3 ProofMt4 ProofMt5 ProofMt6.

Section Stale.
Context {E : Env}.
Variable p : xmss_params.
Variable Hf : bytes -> bytes.
Hypothesis Hp : params_ok p.
Hypothesis HH : hash_total p Hf.
Notation P := (sp_of p Hf).
Notation n := (p_n p).
Notation H := (tree_height p).
Notation k := (bds_k p).
Notation thc := (thcount p).
Notation wsig := (wots_sig_bytes p).
Notation d := (p_d p).
Notation ib := (index_bytes p).
Hypothesis Hk : k < H.
Hypothesis H3 : 3 <= H.
Notation U := ((H - k) / 2).
Hypothesis HU : Nat.min thc (H - 2) <= 2 * U.
Variables (sks seed : bytes).
Hypothesis Hsks : length sks = n.
Hypothesis Hseed : length seed = n.
Notation dig := (dig H).
Notation hi := (hi H).
Notation full := (full H).
Notation running := (running p Hf sks seed).
Notation ex_next := (ex_next p).
Notation some_next := (some_next p Hf sks seed).

Let H30 : H <= 30.
Proof. pose proof (po_th p Hp). lia. Qed.
Let Hh : full_height p = H * d.
Proof. rewrite (po_h p Hp). apply Nat.mul_comm. Qed.
Let U128 : U < 128.
Proof. pose proof (po_th p Hp) as X. apply Nat.div_lt_upper_bound; clear - X; lia. Qed.

Lemma run_range L T q u f base s : sinv H thc U q u f -> base_ok p base -> running L T q f base s -> (st_next_leaf s < 2 ^ 32)%N -> in_range s.
Proof.
  intros Hi Hb [Hs Ho Hst Hth] Hn. pose proof H30 as X30. split; [|split; [exact Hn|]].
  - rewrite Ho.
    assert (Hl : length (stk p Hf sks seed L T f base) <= H + 1).
    { apply lsorted_len; [apply (stk_sorted p Hf Hp HH Hk U HU sks seed L T Hsks Hseed q u f base Hi Hb)|].
      intros a Ha. unfold stk in Ha. apply in_app_or in Ha as [Ha|Ha].
      - pose proof (stk_lt p Hf Hp HH Hk U HU sks seed L T Hsks Hseed q u f base Hi Hb a Ha). lia.
      - destruct Hb as [_ Hb]. rewrite (Hb a Ha). lia. }
    change (2 ^ 32)%N with 4294967296%N. clear - Hl X30. lia.
  - apply Forall_forall. intros t Ht. apply In_nth_error in Ht as [j Hj].
    destruct (Hth j t Hj) as (T1 & T2 & T3 & T4).
    assert (Hjt : j < thc) by (rewrite <- (sh_th p s Hs); apply nth_error_Some; congruence).
    unfold th_range. split; [exact T1|]. split; [exact T2|]. split; [exact T3|].
    destruct (f j); [destruct T4 as (_ & -> & _)|destruct T4 as [-> _]]; reflexivity.
Qed.

(** a round at a left leaf touches neither the stack nor the treehash instances *)
Lemma round_left L T q f base s e sub : N.testbit e 0 = false -> running L T q f base s -> sub_ctx L T sub ->
  exists s', bds_round p s e sks seed sub = Ok s' /\ running L T q f base s' /\ st_next_leaf s' = st_next_leaf s.
Proof.
  intros He [Hs Hoff Hst Hth] (Hs0 & Hs1 & Hs2). pose proof (sh_auth p s Hs) as Hal. pose proof (sh_keep p s Hs) as Hkl.
  unfold bds_round. cbv zeta. rewrite (th_count_ok p Hk), bind_ok.
  assert (Ht : find_tau H 0 e = 0).
  { destruct H as [|h] eqn:EH; [reflexivity|]. cbn [find_tau]. change (N.of_nat 0) with 0%N. now rewrite He. }
  rewrite Ht. change (0 <? 0) with false. change (0 =? 0) with true. change (0 + 1) with 1. change (0 * n) with 0. cbv iota. rewrite bind_ok.
  assert (Hkeep : exists s1, (if negb (N.testbit e (N.of_nat 1)) && (0 <? H - 1) then
               let* x := rd (st_auth s) 0 n in
               let* kp := wr (st_keep s) (0 / 2 * n) x in
               Ok (set_keep s kp)
             else Ok s) = Ok s1 /\ shape p s1 /\ st_auth s1 = st_auth s /\ st_stackoffset s1 = st_stackoffset s /\ st_stack s1 = st_stack s /\
             st_stacklevels s1 = st_stacklevels s /\ st_treehash s1 = st_treehash s /\ st_next_leaf s1 = st_next_leaf s).
  { destruct (_ && _).
    - change (rd (st_auth s) 0 n) with (rd (st_auth s) (0 * n) n). rewrite (rd_ck n (st_auth s) 0 H) by (exact Hal || (clear - H3; lia)). rewrite bind_ok.
      change (0 / 2) with 0. assert (H2 : 0 < H / 2) by (apply Nat.div_str_pos; clear - H3; lia).
      assert (Hck : length (ck n (st_auth s) 0) = n) by (apply (ck_length n (st_auth s) 0 H Hal); clear - H3; lia). rewrite (wr_ck n (st_keep s) 0 (H / 2)) by assumption.
      rewrite bind_ok. eexists. split; [reflexivity|]. split; [|repeat split].
      destruct Hs. constructor; stc; try assumption. apply setck_length; assumption.
    - exists s. split; [reflexivity|]. split; [exact Hs|]. repeat split. }
  destruct Hkeep as (s1 & Ek & Sh1 & Ea & Eo & Es & El & Et & En). rewrite Ek, bind_ok.
  destruct (gen_leaf_wots_spec p Hf Hp HH sks seed L T e
       (set_ltree_addr (set_type (copy_subtree_addr addr_zero sub) 1) e)
       (set_ots_addr (set_type (copy_subtree_addr addr_zero sub) 0) e))
      as (la' & oa' & h' & Hgl & _ & _); [exact Hsks|exact Hseed|repeat split; assumption|reflexivity|split; [repeat split; assumption|reflexivity]|].
  rewrite Hgl, bind_ok. rewrite Ea. change (wr (st_auth s) 0) with (wr (st_auth s) (0 * n)).
  assert (Hll : length (leaf P sks seed L T e) = n) by (change (leaf P sks seed L T e) with (node P sks seed L T 0 e); apply (node_length p Hf Hp HH)).
  rewrite (wr_ck n (st_auth s) 0 H) by (exact Hal || exact Hll || (clear - H3; lia)). rewrite bind_ok.
  eexists. split; [reflexivity|]. split; [|stc; exact En].
  constructor; stc.
  - destruct Sh1. constructor; stc; try assumption. apply setck_length; (exact Hal || exact Hll || (clear - H3; lia)).
  - now rewrite Eo.
  - now rewrite Es, El.
  - rewrite Et. exact Hth.
Qed.

(** what is left of the traversal invariant when the state belongs to another leaf of the same tree *)
Definition rok (idx : N) (i : nat) (ss : list bds_state) : Prop :=
  (exists s q f u base, nth_error ss i = Some s /\ sinv H thc U q u f /\ base_ok p base /\ running (N.of_nat i) (hi idx (S i)) q f base s /\ (st_next_leaf s < 2 ^ 32)%N) /\
  some_next idx i ss.
Lemma rok_frame idx i ss ss' : nth_error ss' i = nth_error ss i -> nth_error ss' (d + i) = nth_error ss (d + i) -> rok idx i ss -> rok idx i ss'.
Proof. intros E1 E2 [(s & q & f & u & base & R) Hn]. split; [exists s, q, f, u, base; now rewrite E1|]. intros HS. rewrite E2. now apply Hn. Qed.
Lemma rok_weak idx i ss : rok idx i ss -> weak p i ss.
Proof.
  intros [(s & q & f & u & base & R1 & R2 & R3 & R4 & R5) Hn]. exists s. split; [exact R1|]. split; [exact (ru_shape _ _ _ _ _ _ _ _ _ _ R4)|].
  split; [exact (run_range _ _ _ _ _ _ _ R2 R3 R4 R5)|]. intros HS. destruct (Hn HS) as (nx & N1 & N2 & N3 & _). exists nx. auto.
Qed.

Lemma step_run idx i v w : i < d -> (idx < 2 ^ N.of_nat (H * d))%N -> length (mv_ss v) = nstates p -> ~ full idx (S i) ->
  rok idx i (mv_ss v) -> mv_updates v = N.of_nat w -> w < 128 -> mv_swap v = (-1)%Z -> (i = 0 -> N.testbit (N.of_nat (dig idx 0)) 0 = false) ->
  exists v' w', mt_layer_step p idx sks seed i v = Ok v' /\ length (mv_ss v') = length (mv_ss v) /\
    (forall j, j <> i -> j <> d + i -> nth_error (mv_ss v') j = nth_error (mv_ss v) j) /\ rok idx i (mv_ss v') /\
    mv_ws v' = mv_ws v /\ mv_updates v' = N.of_nat w' /\ w' < 128 /\ mv_swap v' = (-1)%Z.
Proof.
  intros Hi Lidx Lss NF [(s & q & f & u & base & R1 & R2 & R3 & R4 & R5) Hn] Ew Hw Hsw Hev.
  rewrite (step_nofull p Hp Hk H3 HU sks seed Hsks Hseed idx i v Hi NF). cbv zeta.
  rewrite (rdc_some _ _ s R1), bind_ok, Hsw, Ew. set (a := set_tree_addr (set_layer_addr (mv_addr v) (N.of_nat i)) (hi idx (S i))).
  assert (Hsub : sub_ctx (N.of_nat i) (hi idx (S i)) a) by (apply sub_tree; reflexivity).
  assert (Hround : exists s1, (if (Z.of_nat i =? -1 + 1)%Z then bds_round p s (N.of_nat (dig idx i)) sks seed a else Ok s) = Ok s1 /\
    running (N.of_nat i) (hi idx (S i)) q f base s1 /\ st_next_leaf s1 = st_next_leaf s).
  { destruct (Z.eqb_spec (Z.of_nat i) (-1 + 1)) as [Hz|_].
    - assert (i = 0) by (clear - Hz; lia). subst i. apply (round_left _ _ q f base); [now apply Hev|exact R4|exact Hsub].
    - exists s. auto. }
  destruct Hround as (s1 & Er & Q1 & Q2). rewrite Er, bind_ok. clear Er.
  unfold tail_code.
  destruct (bds_treehash_update_spec p Hf Hp HH Hk U HU sks seed (N.of_nat i) (hi idx (S i)) Hsks Hseed q base a R3 Hsub u f s1 w R2 Q1 Hw)
    as (s2 & f2 & r & Eu & Hr & Hi2 & Hr2 & (_ & _ & _ & S4) & _ & _).
  rewrite Eu, bind_ok. cbv beta iota zeta. assert (Lns : i < length (mv_ss v)) by (rewrite Lss; unfold nstates; clear - Hi; lia).
  rewrite wrc_ok, bind_ok by exact Lns.
  assert (Hlt : full_height p - H * i < 64) by (pose proof (po_h64 p Hp) as X64; clear - X64; lia).
  rewrite shl_ull by exact Hlt. rewrite bind_ok.
  set (ss1 := upd (mv_ss v) i s2).
  assert (L1 : length ss1 = length (mv_ss v)) by apply upd_length.
  assert (N1 : nth_error ss1 i = Some s2) by (apply nth_error_upd_same; exact Lns).
  assert (F1 : forall j, j <> i -> nth_error ss1 j = nth_error (mv_ss v) j) by (intros j Hj; apply nth_error_upd_other; auto).
  assert (Hcur : forall ss', nth_error ss' i = Some s2 -> exists s q f u base, nth_error ss' i = Some s /\ sinv H thc U q u f /\ base_ok p base /\ running (N.of_nat i) (hi idx (S i)) q f base s /\ (st_next_leaf s < 2 ^ 32)%N).
  { intros ss' Hss. exists s2, q, f2, (u - (w - r)), base. split; [exact Hss|]. split; [exact Hi2|]. split; [exact R3|]. split; [exact Hr2|]. rewrite S4, Q2. exact R5. }
  set (a' := set_tree_addr a (hi idx (S i) + 1)).
  assert (Hdi : i <> d + i) by (clear - Hi; lia).
  assert (Hsn1 : some_next idx i ss1) by (intros HSi; rewrite F1 by (clear - Hi; lia); now apply Hn).
  assert (Hstay : exists v' w', Ok (mkMt ss1 (mv_ws v) a' (mv_ots v) (N.of_nat r) (-1)) = Ok v' /\ length (mv_ss v') = length (mv_ss v) /\
    (forall j, j <> i -> j <> d + i -> nth_error (mv_ss v') j = nth_error (mv_ss v) j) /\ rok idx i (mv_ss v') /\
    mv_ws v' = mv_ws v /\ mv_updates v' = N.of_nat w' /\ w' < 128 /\ mv_swap v' = (-1)%Z).
  { eexists. exists r. split; [reflexivity|]. cbn [mv_ss mv_ws mv_updates mv_swap]. split; [exact L1|]. split; [intros j J1 J2; now apply F1|].
    split; [split; [apply (Hcur ss1 N1)|exact Hsn1]|]. split; [reflexivity|]. split; [reflexivity|]. split; [clear - Hr Hw; lia|reflexivity]. }
  destruct (_ <? _)%N eqn:Ee; [|exact Hstay].
  assert (Hex : ex_next idx i) by (now apply (exists_test p Hp Hk H3 HU sks seed Hsks Hseed idx i Hi Lidx)).
  destruct ((0 <? i) && (0 <? N.of_nat r)%N) eqn:Eg; [|exact Hstay].
  apply andb_prop in Eg as [Ei0 Er0]. apply N.ltb_lt in Er0.
  assert (HSi : S i < d) by (exact (ex_next_S p Hp Hk H3 HU sks seed Hsks Hseed idx i Hi Hex)).
  destruct (Hsn1 HSi) as (nx & X1 & X2 & X3 & X4). rewrite (rdc_some _ _ nx X1), bind_ok.
  destruct (st_next_leaf nx <? _)%N; [|exact Hstay].
  destruct (X4 Hex) as (e & Y1 & Y2).
  destruct (next_update p Hf Hp HH Hk H3 HU sks seed Hsks Hseed idx i nx e a' X2 X3 Y1 Y2) as (nx' & e' & Z1 & Z2 & Z3 & Z4 & Z5 & _).
  { apply sub_tree. exact (proj1 Hsub). }
  rewrite Z1, bind_ok. assert (Ld : d + i < length ss1) by (rewrite L1, Lss; unfold nstates; clear - HSi; lia).
  rewrite wrc_ok, bind_ok by exact Ld.
  eexists. exists (r - 1). split; [reflexivity|]. cbn [mv_ss mv_ws mv_updates mv_swap]. split; [rewrite upd_length; exact L1|].
  split; [intros j J1 J2; rewrite nth_error_upd_other by auto; now apply F1|].
  split.
  - split; [apply Hcur; rewrite nth_error_upd_other by auto; exact N1|]. intros _. exists nx'. split; [apply nth_error_upd_same; exact Ld|].
    split; [exact Z2|]. split; [exact Z3|]. intros _. exists e'. auto.
  - split; [reflexivity|]. split; [|split; [clear - Hr Hw; lia|reflexivity]].
    unfold u32. replace (N.of_nat r + (2 ^ 32 - 1))%N with (N.of_nat (r - 1) + 1 * 2 ^ 32)%N by (clear - Er0; lia).
    rewrite N.mod_add by discriminate. apply N.mod_small. change (2 ^ 32)%N with 4294967296%N. clear - Hr Hw; lia.
Qed.

Lemma loop_run idx : (idx < 2 ^ N.of_nat (H * d))%N -> ~ full idx 1 -> N.testbit (N.of_nat (dig idx 0)) 0 = false ->
  forall c i v w, i + c = d -> length (mv_ss v) = nstates p -> (forall j, j < d -> rok idx j (mv_ss v)) -> mv_updates v = N.of_nat w -> w < 128 -> mv_swap v = (-1)%Z ->
  exists v', forN c i (mt_layer_step p idx sks seed) v = Ok v' /\ length (mv_ss v') = nstates p /\ (forall j, j < d -> rok idx j (mv_ss v')) /\ mv_ws v' = mv_ws v.
Proof.
  intros Lidx NF Hev. induction c as [|c IH]; intros i v w Hic Lss Hr Ew Hw Hsw; [exists v; auto|].
  assert (Hi : i < d) by (clear - Hic; lia). cbn [forN].
  destruct (step_run idx i v w Hi Lidx Lss) as (v1 & w1 & S1 & S2 & S3 & S4 & S5 & S6 & S7 & S8); try assumption.
  { apply (not_full_up H idx 1); [clear; lia|exact NF]. } { now apply Hr. } { intros _. exact Hev. }
  rewrite S1, bind_ok. destruct (IH (S i) v1 w1) as (v' & V1 & V2 & V3 & V4); try assumption.
  - clear - Hic; lia.
  - congruence.
  - intros j Hj. destruct (Nat.eq_dec j i) as [->|Hne]; [exact S4|]. apply (rok_frame idx j (mv_ss v)); [|destruct (Nat.eq_dec j i)|now apply Hr].
    + apply S3; [exact Hne|clear - Hj; lia].
    + contradiction.
    + apply S3; clear - Hj Hi Hne; lia.
  - exists v'. split; [exact V1|]. split; [exact V2|]. split; [exact V3|]. congruence.
Qed.

Lemma layer_rok i j ss : ~ full i 1 -> layer p Hf sks seed 0 i j ss -> rok (i + 1) j ss.
Proof.
  intros NF HL. assert (NF' : ~ full i (S j)) by (apply (not_full_up H i 1); [clear; lia|exact NF]).
  split; [|apply some_next_step; [exact NF'|now apply (some_layer p Hf sks seed 0)]].
  destruct HL as (s & f & u & base & L1 & (C1 & C2 & C3 & C4 & _) & _). exists s, (dig i j), f, u, base.
  split; [exact L1|]. split; [exact C1|]. split; [exact C2|]. split; [|exact C4]. rewrite (proj2 (hi_step H i (S j)) NF'). destruct C3 as [C3 _ _ _]. exact C3.
Qed.

Section Keys.
Variables (prfk rt : bytes).
Hypothesis Hprf : length prfk = n.
Hypothesis Hrt : length rt = n.

Lemma stale_mt_returns i ss ws sm m smlen post : (i + 2 < 2 ^ N.of_nat (full_height p))%N -> N.odd i = true -> ((i + 1) mod 2 ^ N.of_nat H <> 0)%N ->
  mtinv p Hf sks seed i ss ws -> sig_bytes p + length m <= length sm ->
  exists o, fast_xmssmt_core_sign p (sk_layout (toByte (i + 1) ib) sks prfk rt seed (concat (map (store_state p) ss) ++ ws ++ post)) sm smlen m = Ok o.
Proof.
  intros Lidx Hodd Hend Hinv Hsm. pose proof Hinv as (I1 & I2 & I3 & _). set (idx := (i + 1)%N) in *.
  assert (NFi : ~ full i 1) by (intros F; apply Hend; apply (full_mod H i 1) in F; rewrite Nat.mul_1_r in F; exact F).
  assert (Lx : (idx < 2 ^ N.of_nat (H * d))%N) by (rewrite <- Hh; unfold idx; clear - Lidx; lia).
  assert (Hbit : N.testbit idx 0 = false) by (rewrite N.bit0_odd; unfold idx; rewrite N.add_1_r, N.odd_succ, <- N.negb_odd, Hodd; reflexivity).
  assert (Hd0 : N.testbit (N.of_nat (dig idx 0)) 0 = false).
  { rewrite (dig_N H), (hi_0 H), N.mod_pow2_bits_low by (clear - H3; lia). exact Hbit. }
  assert (NF : ~ full idx 1).
  { cbn [ProofMt1.full]. intros [_ D]. rewrite D in Hd0. assert (X : N.testbit (N.of_nat (2 ^ H - 1)) 0 = true); [|congruence].
    rewrite Nat2N.inj_sub, <- pow2_of_nat. change (N.of_nat 1) with 1%N. rewrite N.sub_1_r, <- N.ones_equiv. apply N.ones_spec_low. clear - H3; lia. }
  assert (Hrok : forall j, j < d -> rok idx j ss) by (intros j Hj; apply layer_rok; [exact NFi|now apply I3]).
  destruct (fast_mt_sign_gen p Hf Hp HH Hk H3 HU sks seed Hsks Hseed prfk rt Hprf Hrt (fun _ _ => True) idx ss ws sm m smlen post) as (ss' & ws' & _ & _ & _ & Heq).
  - unfold idx. clear - Lidx. lia.
  - exact (mtinv_ok p Hf Hp HH Hk H3 HU sks seed Hsks Hseed i ss ws Hinv).
  - exact I2.
  - exact Hsm.
  - intros ots a _ Ha.
    assert (Hd : 0 < d) by (pose proof (po_d p Hp) as X; clear - X; lia).
    assert (Hpre : exists ss2, (if (u64 ((1 + hi idx 1) * 2 ^ N.of_nat H + N.of_nat (dig idx 0)) <? 2 ^ N.of_nat (full_height p))%N
      then let* nx := rdc ss d in let* nx := bds_state_update p nx sks seed a in wrc ss d nx else Ok ss) = Ok ss2 /\ length ss2 = nstates p /\ forall j, j < d -> rok idx j ss2).
    { pose proof (exists_test p Hp Hk H3 HU sks seed Hsks Hseed idx 0 Hd Lx) as ET. rewrite Nat.mul_0_r, Nat.sub_0_r in ET.
      destruct (_ <? _)%N; [|exists ss; auto]. assert (Hex : ex_next idx 0) by (now apply ET).
      assert (HS : 1 < d) by (exact (ex_next_S p Hp Hk H3 HU sks seed Hsks Hseed idx 0 Hd Hex)).
      destruct (proj2 (Hrok 0 Hd) HS) as (nx & X1 & X2 & X3 & X4). rewrite Nat.add_0_r in X1. destruct (X4 Hex) as (e & Y1 & Y2).
      destruct (next_update p Hf Hp HH Hk H3 HU sks seed Hsks Hseed idx 0 nx e a X2 X3 Y1 Y2 Ha) as (nx' & e' & Z1 & Z2 & Z3 & Z4 & Z5 & _).
      rewrite (rdc_some _ _ nx X1), bind_ok, Z1, bind_ok. assert (Ld : d < length ss) by (rewrite I1; unfold nstates; clear - HS; lia). rewrite wrc_ok by exact Ld.
      eexists. split; [reflexivity|]. split; [rewrite upd_length; exact I1|]. intros j Hj. destruct (Nat.eq_dec j 0) as [->|Hj0].
      - destruct (Hrok 0 Hd) as [(s & R) _]. split; [exists s; rewrite nth_error_upd_other by (clear - Hd; lia); exact R|]. intros _. exists nx'. rewrite Nat.add_0_r.
        split; [apply nth_error_upd_same; exact Ld|]. split; [exact Z2|]. split; [exact Z3|]. intros _. exists e'. auto.
      - apply (rok_frame idx j ss); [apply nth_error_upd_other|apply nth_error_upd_other|now apply Hrok]; clear - Hj Hj0; lia. }
    destruct Hpre as (ss2 & E2 & L2 & R2). exists ss2.
    destruct (loop_run idx Lx NF Hd0 d 0 (mkMt ss2 ws a ots (N.of_nat U) (-1)) U) as (v & V1 & V2 & V3 & V4); try reflexivity; try assumption.
    exists v. split; [exact E2|]. split; [exact V1|]. split; [|split; [rewrite V4; exact I2|exact I]].
    apply weak_all; [exact V2|]. intros j Hj. apply (rok_weak idx). now apply V3.
  - eexists. exact Heq.
Qed.

Lemma stale_single_returns q s sm m smlen post : d = 1 -> q + 2 < 2 ^ H -> Nat.odd q = true -> ready p Hf sks seed 0 0 q [] s -> (st_next_leaf s < 2 ^ 32)%N ->
  sig_bytes p + length m <= length sm ->
  exists o, fast_xmss_core_sign p (sk_layout (toByte (N.of_nat (q + 1)) ib) sks prfk rt seed (store_state p s ++ post)) sm smlen m = Ok o.
Proof.
  intros Hd Hq Hodd Hready Hnl Hsm. assert (Hib : ib = 4) by (rewrite (po_ib p Hp); unfold sp_ib, sp_of; cbn [sp_d]; now rewrite Hd).
  assert (Hfh : full_height p = H) by (rewrite Hh, Hd; clear; lia).
  destruct Hready as (f0 & u0 & Hi0 & _ & [Hrun _ _ _]). assert (Hb0 : base_ok p []) by (split; [cbn; lia|intros a []]).
  pose proof (ru_shape _ _ _ _ _ _ _ _ _ _ Hrun) as Hshape. pose proof (run_range _ _ _ _ _ _ _ Hi0 Hb0 Hrun Hnl) as Hrange.
  set (idx := N.of_nat (q + 1)).
  assert (Hx : (idx + 1 < 2 ^ N.of_nat H)%N) by (unfold idx; rewrite pow2_of_nat; clear - Hq; lia).
  assert (HB : (2 ^ N.of_nat H <= 2 ^ 30)%N) by (apply N.pow_le_mono_r; [discriminate|pose proof H30; lia]).
  assert (Hbit : N.testbit idx 0 = false).
  { rewrite N.bit0_odd. unfold idx. rewrite Nat2N.inj_add. change (N.of_nat 1) with 1%N. rewrite N.add_1_r, N.odd_succ, <- N.negb_odd.
    replace (N.odd (N.of_nat q)) with true; [reflexivity|]. symmetry. apply Nat.odd_spec in Hodd as [y Hy]. apply N.odd_spec. exists (N.of_nat y). clear - Hy. lia. }
  unfold fast_xmss_core_sign. cbv zeta.
  set (pre := toByte idx ib ++ sks ++ prfk ++ rt ++ seed).
  assert (Hpre : length pre = ib + 4 * n) by (unfold pre; rewrite !app_length, toByte_length; lia).
  assert (Hsk : sk_layout (toByte idx ib) sks prfk rt seed (store_state p s ++ post) = pre ++ concat (map (store_state p) [s]) ++ [] ++ post).
  { unfold sk_layout, pre. cbn [map concat]. rewrite app_nil_r, <- !app_assoc. reflexivity. }
  rewrite Hsk. rewrite (deserialize_spec p Hk H30 ltac:(clear - Hd; lia) pre [s] [] post);
    [|exact Hpre|unfold states_ok, nstates; rewrite Hd; cbn [length]; split; [reflexivity|split; auto]|rewrite Hd; reflexivity].
  rewrite bind_ok. rewrite <- Hsk. unfold sk_layout at 1.
  rewrite (rd_at _ [] (toByte idx ib) (sks ++ prfk ++ rt ++ seed ++ store_state p s ++ post)) by (reflexivity || now rewrite toByte_length).
  rewrite bind_ok. assert (Eix : bytes_to_ull (toByte idx ib) = Ok idx).
  { rewrite Hib. apply ull_field; [|clear; lia]. change (256 ^ N.of_nat 4)%N with (2 ^ 32)%N. change (2 ^ 30)%N with 1073741824%N in HB. change (2 ^ 32)%N with 4294967296%N. clear - Hx HB. lia. }
  rewrite Eix, bind_ok. unfold shl1_ull. rewrite Hfh. destruct (Nat.ltb_spec H 64) as [_|X]; [|pose proof H30 as Y; clear - X Y; lia]. rewrite bind_ok.
  destruct (N.leb_spec (2 ^ N.of_nat H - 1) idx) as [Hbad|_]; [clear - Hbad Hx; lia|].
  assert (Hgo : forall a, sub_ctx 0 0 a -> exists s2, (let* s := bds_round p s idx sks seed a in let* (s, _) := bds_treehash_update p s (N.shiftr (f_tree_height p - f_bds_k p) 1) sks seed a in Ok s) = Ok s2 /\ shape p s2 /\ in_range s2).
  { intros a Ha. destruct (round_left 0 0 q f0 [] s idx a Hbit Hrun Ha) as (s1 & E1 & R1 & N1). rewrite E1, bind_ok.
    destruct (bds_treehash_update_spec p Hf Hp HH Hk U HU sks seed 0 0 Hsks Hseed q [] a Hb0 Ha u0 f0 s1 U Hi0 R1 U128) as (s2 & f2 & r & Eu & Hr & Hi2 & Hr2 & (_ & _ & _ & S4) & _ & _).
    rewrite (fU p), Eu, bind_ok. exists s2. split; [reflexivity|]. split; [exact (ru_shape _ _ _ _ _ _ _ _ _ _ Hr2)|].
    apply (run_range _ _ _ _ _ _ _ Hi2 Hb0 Hr2). now rewrite S4, N1. }
  destruct (single_output p Hf Hp HH sks prfk rt seed Hsks Hprf Hrt Hseed idx (toByte idx ib) s (store_state p s ++ post) sm m Hd (toByte_length _ _)) as (ots & Ho & Hout).
  { exact (sh_auth p s Hshape). } { exact Hsm. } { clear - Hx; lia. }
  assert (Hsub : sub_ctx 0 0 ots) by (destruct Ho as [(A0 & A1 & A2 & _) _]; repeat split; assumption).
  destruct (Hgo ots Hsub) as (s2 & E2 & Sh2 & Rg2).
  set (pre' := toByte (idx + 1) ib ++ sks ++ prfk ++ rt ++ seed).
  assert (Hsk' : sk_layout (toByte (idx + 1) ib) sks prfk rt seed (store_state p s ++ post) = pre' ++ store_state p s ++ post).
  { unfold sk_layout, pre'. rewrite <- !app_assoc. reflexivity. }
  assert (Hser : exists sk2, xmssmt_serialize_state p (sk_layout (toByte (idx + 1) ib) sks prfk rt seed (store_state p s ++ post)) [s2] [] = Ok sk2).
  { rewrite Hsk'. rewrite (serialize_spec p Hk H30 ltac:(clear - Hd; lia) pre' (store_state p s) post [s2] []);
    [eexists; reflexivity|unfold pre'; rewrite !app_length, toByte_length; clear - Hsks Hprf Hrt Hseed; lia
     |unfold ser_bytes, nstates; rewrite Hd, (store_state_length p Hk H30 s Hshape); clear; lia
     |unfold states_ok, nstates; rewrite Hd; cbn [length]; split; [reflexivity|split; auto]|rewrite Hd; reflexivity]. }
  destruct Hser as (sk2 & Es2). eexists. apply (Hout s2 sk2); [|exact Es2].
  destruct (N.ltb_spec idx (2 ^ N.of_nat H - 1)) as [_|Hbad]; [exact E2|clear - Hbad Hx; lia].
Qed.
End Keys.
End Stale.
