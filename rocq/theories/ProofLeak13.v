(** The chains of the multi-tree fast core: the update loop. *)
From Coq Require Import ZArith.
From Verif Require Import Base Lib SpecRfc ModelUtils ModelParams ModelHash ModelWots ModelCommons ModelCore ModelCoreFast ModelXmss
  ProofUtils ProofHash ProofWots ProofCommons ProofTree ProofCore SpecParams SpecApi SpecFast ModelLeak ModelLeakFast SpecLeak ProofLeak ProofLeak3 ProofLeak8 ProofLeak9 ProofLeak11
  ProofSched ProofBds1 ProofBds2 ProofBds3 ProofBds4 ProofFast1 ProofFast2 ProofFast5 ProofMt1 ProofMt2 ProofMt3 ProofMt4 ProofMt5.

Section Mt.
Context {E : Env}.
Variable p : xmss_params.
Variable Hf : bytes -> bytes.
Hypothesis Hp : params_ok p.
Hypothesis HH : hash_total p Hf.
Notation P := (sp_of p Hf).
Notation n := (p_n p).
Notation H := (tree_height p).
Notation k := (bds_k p).
Notation thc := (thcount p).
Notation wsig := (wots_sig_bytes p).
Notation d := (p_d p).
Hypothesis Hk : k < H.
Hypothesis H3 : 3 <= H.
Notation U := ((H - k) / 2).
Hypothesis HU : Nat.min thc (H - 2) <= 2 * U.
Variables (sks seed : bytes).
Hypothesis Hsks : length sks = n.
Hypothesis Hseed : length seed = n.
Notation dig := (dig H).
Notation hi := (hi H).
Notation full := (full H).
Notation layer := (layer p Hf sks seed).

Let H30 : H <= 30.
Proof. pose proof (po_th p Hp). lia. Qed.
Let Hh : full_height p = H * d.
Proof. rewrite (po_h p Hp). apply Nat.mul_comm. Qed.

Lemma ws_ch_long M x i s a y : bytes_ok M -> length M = n -> n <= length s -> outcome (wots_sign_l p (M ++ x) i s a) = Ok y ->
  chains (trace (wots_sign_l p (M ++ x) i s a)) = map (chain_trace P) (wots_digits P M).
Proof.
  intros Hb Hm. apply (ws_ch_of p Hf Hp HH). rewrite <- (chain_lengths_spec p Hf Hp M Hb Hm). 
  pose proof (chain_lengths_spec p Hf Hp M Hb Hm) as Hc. unfold chain_lengths, base_w in Hc |- *.
  destruct (base_w_loop p (wots_len1 p) M 0 (junk 0) 0) as [l| |] eqn:El; try discriminate. now rewrite (base_w_loop_app p M x _ _ _ _ _ El).
Qed.

(** the lengths a layer's exchange runs for: the digits of the next tree's root *)
Definition rolls (idx : N) (c : nat) : bool := (Datatypes.S c <? d) && ((idx + 1) mod 2 ^ N.of_nat (H * Datatypes.S c) =? 0)%N.
Definition roll_digits (idx : N) (c : nat) : list nat :=
  if rolls idx c then wots_digits P (root P sks seed (N.of_nat c) (hi (idx + 1) (Datatypes.S c))) else [].

Lemma nc_step idx c v : c < d -> ~ full idx (Datatypes.S c) -> nc (mt_layer_step_l p idx sks seed c v).
Proof.
  intros Hc NF. unfold mt_layer_step_l. cbv zeta.
  unfold nc. destruct (shl1_ull ((c + 1) * H)) as [b| |] eqn:Eb; [|reflexivity|reflexivity].
  eapply ch_skip; [reflexivity|reflexivity|cbv beta].
  destruct (shl1_ull (full_height p)) as [fl| |] eqn:Ef; [|reflexivity|reflexivity].
  eapply ch_skip; [reflexivity|reflexivity|cbv beta].
  destruct (shl1_int H) as [th| |] eqn:Et; [|reflexivity|reflexivity].
  eapply ch_skip; [reflexivity|reflexivity|cbv beta].
  unfold shl1_ull in Eb. destruct (Nat.ltb_spec ((c + 1) * H) 64) as [_|]; [|discriminate]. injection Eb as <-.
  pose proof (land_full p Hp Hk H3 HU sks seed Hsks Hseed idx c Hc) as LF.
  apply ch_iff. destruct (N.land (idx + 1) (2 ^ N.of_nat ((c + 1) * H) - 1) =? 0)%N; [exfalso; apply NF; now apply LF|].
  cbn [negb]. change (nc ?x) with (chains (trace x) = []). 
  match goal with |- chains (trace ?x) = [] => change (nc x) end.
  ncs; try apply nc_round; try apply nc_bu; apply nc_su.
Qed.

Lemma swap_chains idx i v s nx M x v' : Datatypes.S i < d -> (idx + 1 < 2 ^ N.of_nat (H * d))%N -> full idx (Datatypes.S i) ->
  nth_error (mv_ss v) i = Some s -> nth_error (mv_ss v) (d + i) = Some nx -> st_stack nx = M ++ x -> length M = n -> bytes_ok M ->
  length (mv_ss v) = nstates p ->
  outcome (mt_layer_step_l p idx sks seed i v) = Ok v' ->
  chains (trace (mt_layer_step_l p idx sks seed i v)) = map (chain_trace P) (wots_digits P M).
Proof.
  intros HSi Lidx F L1 N1 Hst LM BM Lss Ho.
  pose proof (land_full p Hp Hk H3 HU sks seed Hsks Hseed idx i ltac:(lia)) as LF.
  unfold mt_layer_step_l in *. cbv zeta in *.
  eapply ch_drop; [reflexivity|exact Ho|clear Ho; intros b Eb Ho]. cbn [silent outcome] in Eb. unfold shl1_ull in Eb. destruct (Nat.ltb_spec ((i + 1) * H) 64) as [_|]; [|discriminate]. injection Eb as <-.
  eapply ch_drop; [reflexivity|exact Ho|clear Ho; intros fl Ef Ho]. cbn [silent outcome] in Ef. unfold shl1_ull in Ef. destruct (Nat.ltb_spec (full_height p) 64) as [_|]; [|discriminate]. injection Ef as <-.
  eapply ch_drop; [reflexivity|exact Ho|clear Ho; intros th Et Ho].
  apply ch_iff. unfold lif at 1 in Ho. cbn [outcome] in Ho. rewrite (proj2 LF F) in Ho |- *. cbn [negb] in Ho |- *.
  apply ch_iff. unfold lif at 1 in Ho. cbn [outcome] in Ho. rewrite <- Hh in Lidx. destruct (N.ltb_spec idx (2 ^ N.of_nat (full_height p) - 1)) as [_|Z]; [|lia].
  assert (Ld : d + i < length (mv_ss v)) by (rewrite Lss; unfold nstates; lia).
  eapply ch_drop; [unfold deep_state_swap_l; ncs|exact Ho|clear Ho; intros ss2 Es Ho]. rewrite lf_swap in Es. unfold deep_state_swap in Es.
  rewrite (rdc_some _ _ nx N1), bind_ok, (rdc_some _ _ s L1), bind_ok, wrc_ok, bind_ok in Es by exact Ld. rewrite wrc_ok in Es by (rewrite upd_length; lia). injection Es as <-.
  eapply ch_drop; [reflexivity|exact Ho|clear Ho; intros t _ Ho]. eapply ch_drop; [reflexivity|exact Ho|clear Ho; intros l _ Ho].
  eapply ch_drop; [reflexivity|exact Ho|clear Ho; intros s2 Es Ho]. cbn [rdc_l outcome] in Es. rewrite (rdc_some _ _ nx) in Es by (apply nth_error_upd_same; rewrite upd_length; lia). injection Es as <-.
  rewrite Hst in Ho |- *.
  apply bind_inv in Ho. destruct Ho as ([sig ots] & H1 & _). rewrite <- (app_nil_r (map (chain_trace P) _)). eapply ch_bind; [exact H1| |].
  - eapply ws_ch_long; [exact BM|exact LM|lia|exact H1].
  - cbv beta iota. match goal with |- chains (trace ?c) = [] => change (nc c) end. ncs.
Qed.

Section Loop.
Variables (idx : N) (m : nat) (ss0 : list bds_state) (ws0 : bytes).
Hypothesis Lidx : (idx + 1 < 2 ^ N.of_nat (H * d))%N.
Hypothesis Hm : m < d.
Hypothesis HmU : m <= U + 1.
Hypothesis F : full idx m.
Hypothesis NF : ~ full idx (Datatypes.S m).
Notation good := (fun _ : nat => false).
Hypothesis Hgood : forall i, i < d -> false = false -> layer (if i =? 0 then 1 else 0) idx i ss0.
Notation JJ := (J p Hf sks seed idx m good (weak p) [] ss0 ws0).

Lemma step_chains c v : c < d -> JJ c v ->
  chains (trace (mt_layer_step_l p idx sks seed c v)) = map (chain_trace P) (roll_digits idx c) /\
  exists v', outcome (mt_layer_step_l p idx sks seed c v) = Ok v' /\ JJ (Datatypes.S c) v'.
Proof.
  intros Hc HJ.
  destruct (loop_step p Hf Hp HH Hk H3 HU sks seed Hsks Hseed idx m good (weak p) [] ss0 ws0 Lidx Hm F NF Hgood (weak_frame p) c v Hc eq_refl ltac:(lia) HJ) as (v' & E1 & E2).
  rewrite <- lf_step in E1. split; [|exists v'; auto].
  pose proof (at_c p Hf sks seed idx m good (weak p) [] ss0 ws0 Hgood c v Hc HJ eq_refl) as Lc.
  unfold roll_digits, rolls.
  pose proof (full_mod H idx (Datatypes.S c)) as FM.
  destruct (Nat.lt_ge_cases c m) as [Hcm|Hcm].
  - assert (HSc : Datatypes.S c < d) by lia. assert (Fc : full idx (Datatypes.S c)) by (apply (full_lt H idx m); assumption).
    destruct (Nat.ltb_spec (Datatypes.S c) d) as [_|Z]; [|lia]. rewrite (proj1 FM Fc). cbn [N.eqb andb].
    destruct Lc as (s & f & u & base & L1 & C & L3). destruct (L3 HSc) as (nx & N1 & N2).
    destruct (next_complete p Hf H3 HU sks seed idx c s nx f u base HSc ltac:(lia) Lidx Fc C N2) as [Q Qr].
    set (rt := root P sks seed (N.of_nat c) (hi (idx + 1) (Datatypes.S c))).
    pose proof (pt_stack _ _ _ _ _ _ _ _ Q) as Stn. rewrite (bst_top p Hf Hp) in Stn by assumption. fold rt in Stn.
    assert (Hst : st_stack nx = rt ++ skipn n (st_stack nx)).
    { cbn [srepr fst snd length] in Stn. destruct Stn as (S1 & _). unfold ck in S1. rewrite Nat.mul_0_l in S1. cbn [skipn] in S1. rewrite <- S1 at 1. symmetry. apply firstn_skipn. }
    apply (swap_chains idx c v s nx rt (skipn n (st_stack nx)) v' HSc Lidx Fc L1 N1 Hst); [apply (node_length p Hf Hp HH)|apply (node_bytes p Hf HH)|apply HJ|exact E1].
  - assert (NFc : ~ full idx (Datatypes.S c)) by (apply (not_full_up H idx (Datatypes.S m)); [lia|exact NF]).
    destruct (N.eqb_spec ((idx + 1) mod 2 ^ N.of_nat (H * Datatypes.S c)) 0) as [Z|_]; [exfalso; apply NFc; now apply FM|]. rewrite andb_false_r.
    now apply nc_step.
Qed.
End Loop.

Lemma update_chains idx ss ws ots a : (idx + 1 < 2 ^ N.of_nat (H * d))%N -> d <= U + 2 \/ (idx + 1 < 2 ^ N.of_nat (H * (U + 2)))%N ->
  mtinv p Hf sks seed idx ss ws -> a3 ots = 0%N -> sub_ctx 0 (hi idx 1 + 1) a -> exists ss2,
    (if (u64 ((1 + hi idx 1) * 2 ^ N.of_nat H + N.of_nat (dig idx 0)) <? 2 ^ N.of_nat (full_height p))%N
     then let* nx := rdc ss d in let* nx := bds_state_update p nx sks seed a in wrc ss d nx else Ok ss) = Ok ss2 /\
    chains (trace (lforN d 0 (mt_layer_step_l p idx sks seed) (mkMt ss2 ws a ots (N.of_nat U) (-1)))) =
    concat (map (fun c => map (chain_trace P) (roll_digits idx c)) (seq 0 d)).
Proof.
  intros Lidx Hwin (I1 & I2 & I3 & I4) Ho Ha. destruct (carry H idx d Lidx) as (m & Hm & F & NF).
  assert (HmU : m <= U + 1) by (destruct Hwin as [Hw|Hw]; [clear - Hm Hw; lia|exact (up_same_window p idx m Hw F)]).
  assert (Lidx' : (idx < 2 ^ N.of_nat (H * d))%N) by (clear - Lidx; lia).
  destruct (pre_update p Hf Hp HH Hk H3 HU sks seed Hsks Hseed idx ss a Lidx' I1 (I3 0 ltac:(clear - Hm; lia)) Ha) as (ss2 & P1 & P2 & P3 & P4).
  rewrite I1 in P2. exists ss2. split; [exact P1|].
  assert (Hgood : forall i, i < d -> false = false -> layer (if i =? 0 then 1 else 0) idx i ss2).
  { intros i Hi _. destruct (Nat.eqb_spec i 0) as [->|Hi0]; [exact P3|]. apply (layer_frame p Hf sks seed 0 idx i ss); [apply P4; clear - Hi; lia|apply P4; clear - Hi0; lia|now apply I3]. }
  refine (proj1 (ch_for (J p Hf sks seed idx m (fun _ => false) (weak p) [] ss2 ws) _ d 0 _ _ _ _)).
  - exact (start_J p Hf sks seed idx m (fun _ => false) (weak p) [] ss2 ws ots a P2 I2 Ho).
  - intros c v _ Hc HJ. exact (step_chains idx m ss2 ws Lidx Hm HmU F NF Hgood c v Hc HJ).
Qed.
End Mt.
