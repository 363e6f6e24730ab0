(** A layer whose tree is exhausted: the next tree takes over and is signed by the layer above. *)
From Coq Require Import ZArith.
From Verif Require Import Base ModelUtils ModelParams ModelHash ModelWots ModelCommons ModelCoreFast SpecRfc Lib ProofUtils ProofHash ProofWots ProofCommons ProofTree ProofCore ProofSched ProofBds1 ProofBds2 ProofBds3 ProofBds4 ProofFast1 ProofFast2 ProofMt1 ProofMt2 ProofMt3.

Section Mt.
Context {E : Env}.
Variable p : xmss_params.
Variable Hf : bytes -> bytes.
Hypothesis Hp : params_ok p.
Hypothesis HH : hash_total p Hf.
Notation P := (sp_of p Hf).
Notation n := (p_n p).
Notation H := (tree_height p).
Notation k := (bds_k p).
Notation thc := (thcount p).
Notation wsig := (wots_sig_bytes p).
Notation d := (p_d p).
Hypothesis Hk : k < H.
Hypothesis H3 : 3 <= H.
Notation U := ((H - k) / 2).
Hypothesis HU : Nat.min thc (H - 2) <= 2 * U.
Variables (sks seed : bytes).
Hypothesis Hsks : length sks = n.
Hypothesis Hseed : length seed = n.
Notation dig := (dig H).
Notation hi := (hi H).
Notation full := (full H).
Notation cnt := (cnt H).
Notation A := (A p).
Notation layer := (layer p Hf sks seed).
Notation ex_next := (ex_next p).
Notation allgood := (allgood H).

Let H2 : H <> 2.
Proof. clear - H3; lia. Qed.
Let H30 : H <= 30.
Proof. pose proof (po_th p Hp). lia. Qed.
Let Hh : full_height p = H * d.
Proof. rewrite (po_h p Hp). apply Nat.mul_comm. Qed.
Let U128 : U < 128.
Proof. pose proof (po_th p Hp) as X. apply Nat.div_lt_upper_bound; clear - X; lia. Qed.


Notation slot := (ck wsig).
Definition up_sig (idx : N) (i : nat) : bytes :=
  concat (wots_sig P seed (N.of_nat (S i)) (hi idx (S (S i))) (N.of_nat (dig idx (S i))) sks (root P sks seed (N.of_nat i) (hi idx (S i)))).
Definition done_th (t : treehash_inst) : treehash_inst := mkTh (th_h t) (th_next_idx t) (th_stackusage t) 1 (th_node t).

Lemma up_sig_length idx i : length (up_sig idx i) = wsig.
Proof. unfold up_sig. rewrite (chunked_length n) by apply (wots_sig_chunked p Hf HH). rewrite (wots_sig_length p Hf Hp), (po_wsig p Hp). reflexivity. Qed.

Lemma done_shape s : shape p s -> shape p (set_treehash s (map done_th (st_treehash s))).
Proof.
  intros [S1 S2 S3 S4 S5 S6 S7]. constructor; cbn [st_stack st_stacklevels st_auth st_keep st_treehash st_retain set_treehash]; try assumption.
  - now rewrite map_length.
  - intros j t Ht. rewrite nth_error_map in Ht. destruct (nth_error (st_treehash s) j) as [t'|] eqn:Et; [|discriminate]. injection Ht as <-. exact (S6 j t' Et).
Qed.
Lemma done_built nd e s : built p nd e 0 s -> built p nd e 0 (set_treehash s (map done_th (st_treehash s))).
Proof.
  intros [B1 B2 B3]. constructor; cbn [st_auth st_retain set_treehash]; try assumption.
  intros j Hj Hd. rewrite <- (B2 j Hj Hd). unfold th_nd. cbn [st_treehash set_treehash]. rewrite nth_error_map.
  destruct (nth_error (st_treehash s) j); reflexivity.
Qed.

(** the next tree is complete when its layer needs it *)
Lemma next_complete idx i s nx f u base : S i < d -> i <= U -> (idx + 1 < 2 ^ N.of_nat (H * d))%N -> full idx (S i) ->
  cur p Hf sks seed idx i f u base s -> nxt p Hf sks seed (if i =? 0 then 1 else 0) idx i f nx ->
  partial_tree p Hf sks seed (N.of_nat i) (hi (idx + 1) (S i)) (2 ^ N.of_nat H) nx /\ in_range nx.
Proof.
  intros HSi HiU Lidx F (C1 & _) (X1 & X2 & X3). split; [|exact X2].
  pose proof (proj1 (hi_step H idx (S i)) F) as Eh.
  assert (Hex : ex_next idx i).
  { unfold ProofMt2.ex_next. rewrite <- Eh. replace (d - 1 - i) with (d - S i) by (clear; lia). apply hi_lt; [exact Lidx|clear - HSi; lia]. }
  destruct (X3 Hex) as (e & Q1 & Q2 & Q3). destruct F as [F D].
  assert (He : e = 2 ^ H).
  { unfold link in Q3. pose proof (pow2_pos_nat H) as PB. destruct (Nat.eqb_spec i 0) as [->|Hi0]; [rewrite Q3, D; clear - PB; lia|].
    destruct Q3 as [Q3|Q3]; [exact Q3|]. rewrite D, (cnt_full H H3) in Q3 by (exact F || (clear - Hi0; lia)).
    apply Nat.le_antisymm; [exact Q1|]. apply (complete_arith U i (2 ^ H) e); [clear - Hi0; lia|exact HiU|clear - PB; lia|].
    pose proof (wk_le H thc U HU (2 ^ H - 1)) as W. unfold ProofMt2.A in Q3. revert Q3 W. generalize ((U + 1 - i) * (2 ^ i * (2 ^ H - 1) + 2 ^ i)), ((U + 1 - i) * e), (U * (2 ^ H - 1)), (wk H thc (2 ^ H - 1)). clear. lia. }
  rewrite Eh. rewrite He, <- pBn in Q2. exact Q2.
Qed.

(** a swap, whatever the state of the next tree; [M] is the first n bytes of its stack *)
Definition swapped_cur (nx : bds_state) : bds_state := set_treehash nx (map done_th (st_treehash nx)).
Definition swapped_next (s : bds_state) : bds_state := set_next_leaf (set_stackoffset s 0) 0%N.
Lemma step_swap_raw idx i v s nx M x : S i < d -> (idx + 1 < 2 ^ N.of_nat (H * d))%N -> length (mv_ss v) = nstates p -> full idx (S i) ->
  nth_error (mv_ss v) i = Some s -> nth_error (mv_ss v) (d + i) = Some nx -> st_stack nx = M ++ x -> length M = n -> bytes_ok M ->
  length (mv_ws v) = (d - 1) * wsig -> a3 (mv_ots v) = 0%N ->
  exists v', mt_layer_step p idx sks seed i v = Ok v' /\
    length (mv_ss v') = length (mv_ss v) /\ (forall j, j <> i -> j <> d + i -> nth_error (mv_ss v') j = nth_error (mv_ss v) j) /\
    nth_error (mv_ss v') i = Some (swapped_cur nx) /\ nth_error (mv_ss v') (d + i) = Some (swapped_next s) /\
    mv_updates v' = u32 (mv_updates v + (2 ^ 32 - 1)) /\ mv_swap v' = Z.of_nat i /\ a3 (mv_ots v') = 0%N /\
    length (mv_ws v') = length (mv_ws v) /\
    slot (mv_ws v') i = concat (wots_sig P seed (N.of_nat (S i)) (hi (idx + 1) (S (S i))) (N.of_nat (dig (idx + 1) (S i))) sks M) /\
    (forall j, j < d - 1 -> j <> i -> slot (mv_ws v') j = slot (mv_ws v) j).
Proof.
  intros HSi Lidx Lss F L1 N1 Hst LM BM Lws Ho3.
  assert (Hi : i < d) by (clear - HSi; lia).
  assert (M1 : H * S (S i) <= H * d) by (apply Nat.mul_le_mono_l; exact HSi).
  pose proof (po_h64 p Hp) as H64. rewrite Hh in H64.
  unfold mt_layer_step.
  rewrite (shl_ull ((i + 1) * H)) by (clear - M1 H64; nia). rewrite (shl_ull (full_height p)) by (rewrite Hh; exact H64). rewrite (two_h p Hp Hk H3 HU sks seed Hsks Hseed), !bind_ok.
  replace (N.land (idx + 1) (2 ^ N.of_nat ((i + 1) * H) - 1) =? 0)%N with true by (symmetry; apply (land_full p Hp Hk H3 HU sks seed Hsks Hseed idx i); assumption).
  cbn [negb]. replace (idx <? 2 ^ N.of_nat (full_height p) - 1)%N with true by (symmetry; apply N.ltb_lt; rewrite Hh; clear - Lidx; lia).
  unfold deep_state_swap. rewrite (rdc_some _ _ nx N1), bind_ok, (rdc_some _ _ s L1), bind_ok.
  assert (Ld : d + i < length (mv_ss v)) by (rewrite Lss; unfold nstates; clear - HSi; lia).
  rewrite wrc_ok, bind_ok by exact Ld. rewrite wrc_ok, bind_ok by (rewrite upd_length; clear - Ld; lia).
  replace ((i + 2) * H) with (H * S (S i)) by (clear; lia). rewrite (shr_hi p (idx + 1)) by (clear - M1 H64; lia). rewrite bind_ok.
  replace ((i + 1) * H) with (H * S i) by (clear; lia). rewrite (shr_hi p idx) by (clear - M1 H64; nia). rewrite bind_ok. cbv zeta.
  set (ss2 := upd (upd (mv_ss v) (d + i) s) i nx).
  assert (Lss2 : length ss2 = length (mv_ss v)) by (unfold ss2; now rewrite !upd_length).
  assert (R1 : nth_error ss2 i = Some nx) by (apply nth_error_upd_same; rewrite upd_length; clear - Ld; lia).
  rewrite (rdc_some _ _ nx R1), bind_ok.
  set (ots0 := set_ots_addr _ _).
  pose proof (proj1 (hi_step H idx (S i)) F) as Eh.
  assert (Hlf : N.land (hi idx (S i) + 1) (2 ^ N.of_nat H - 1) = N.of_nat (dig (idx + 1) (S i))).
  { rewrite <- Eh. replace (2 ^ N.of_nat H - 1)%N with (N.ones (N.of_nat H)) by (rewrite N.ones_equiv, N.sub_1_r; reflexivity). now rewrite N.land_ones, <- (dig_N H). }
  assert (Hots : ots_ctx ots0 (N.of_nat (S i)) (hi (idx + 1) (S (S i))) (N.of_nat (dig (idx + 1) (S i)))).
  { unfold ots0. rewrite Hlf. split; [|reflexivity]. split; [cbn; now rewrite Nat.add_1_r|]. split; [apply u32_shiftr_u64|]. split; [reflexivity|exact Ho3]. }
  rewrite Hst.
  destruct (wots_sign_long p Hf Hp HH sks seed Hsks Hseed (N.of_nat (S i)) (hi (idx + 1) (S (S i))) (N.of_nat (dig (idx + 1) (S i))) M x ots0 BM LM Hots) as (ots' & W1 & W2).
  rewrite W1, bind_ok. cbv beta iota. set (sg := concat (wots_sig P seed _ _ _ sks M)).
  assert (Lsg : length sg = wsig).
  { unfold sg. rewrite (chunked_length n) by apply (wots_sig_chunked p Hf HH). rewrite (wots_sig_length p Hf Hp), (po_wsig p Hp). reflexivity. }
  assert (Hi1 : i < d - 1) by (clear - HSi; lia).
  rewrite (wr_ck wsig (mv_ws v) i (d - 1)) by assumption. rewrite bind_ok.
  assert (R2 : nth_error ss2 (d + i) = Some s).
  { unfold ss2. rewrite nth_error_upd_other by (clear - Hi; lia). apply nth_error_upd_same. exact Ld. }
  rewrite (rdc_some _ _ s R2), bind_ok. rewrite wrc_ok, bind_ok by (rewrite Lss2; exact Ld).
  rewrite wrc_ok, bind_ok by (rewrite upd_length, Lss2; clear - Ld; lia).
  change (map _ (st_treehash nx)) with (map done_th (st_treehash nx)).
  change (set_treehash nx (map done_th (st_treehash nx))) with (swapped_cur nx). change (set_next_leaf (set_stackoffset s 0) 0%N) with (swapped_next s).
  eexists. split; [reflexivity|]. cbn [mv_ss mv_ws mv_ots mv_swap mv_updates].
  split; [rewrite !upd_length; exact Lss2|]. split.
  { intros j J1 J2. unfold ss2. rewrite !nth_error_upd_other by auto. reflexivity. }
  split; [apply nth_error_upd_same; rewrite upd_length, Lss2; clear - Ld; lia|].
  split; [rewrite nth_error_upd_other by (clear - Hi; lia); apply nth_error_upd_same; rewrite Lss2; exact Ld|].
  split; [reflexivity|]. split; [reflexivity|]. split; [apply W2|]. split; [rewrite (setck_length wsig _ _ (d - 1)) by assumption; now rewrite Lws|].
  split; [apply (ck_setck_same wsig _ _ (d - 1)); assumption|].
  intros j J1 J2. apply (ck_setck_other wsig _ _ _ (d - 1)); try assumption. auto.
Qed.

Lemma step_swap idx i v : S i < d -> i <= U -> (idx + 1 < 2 ^ N.of_nat (H * d))%N -> length (mv_ss v) = nstates p -> full idx (S i) ->
  layer (if i =? 0 then 1 else 0) idx i (mv_ss v) -> length (mv_ws v) = (d - 1) * wsig -> a3 (mv_ots v) = 0%N ->
  exists v', mt_layer_step p idx sks seed i v = Ok v' /\ stepped p Hf sks seed idx i v v' /\
    mv_updates v' = u32 (mv_updates v + (2 ^ 32 - 1)) /\ mv_swap v' = Z.of_nat i /\ a3 (mv_ots v') = 0%N /\
    length (mv_ws v') = length (mv_ws v) /\ slot (mv_ws v') i = up_sig (idx + 1) i /\
    (forall j, j < d - 1 -> j <> i -> slot (mv_ws v') j = slot (mv_ws v) j).
Proof.
  intros HSi HiU Lidx Lss F (s & f & u & base & L1 & C & L3) Lws Ho3.
  destruct (L3 HSi) as (nx & N1 & N2). destruct (next_complete idx i s nx f u base HSi HiU Lidx F C N2) as [Q Qr].
  destruct C as (C1 & C2 & C3 & C4 & C5 & C6).
  assert (Hi : i < d) by (clear - HSi; lia).
  set (rt := root P sks seed (N.of_nat i) (hi (idx + 1) (S i))).
  pose proof (pt_shape _ _ _ _ _ _ _ _ Q) as Sn. pose proof (pt_stack _ _ _ _ _ _ _ _ Q) as Stn. pose proof (pt_off _ _ _ _ _ _ _ _ Q) as Son.
  rewrite (bst_top p Hf Hp) in Stn, Son by assumption. fold rt in Stn, Son.
  assert (Hst : st_stack nx = rt ++ skipn n (st_stack nx)).
  { cbn [srepr fst snd length] in Stn. destruct Stn as (S1 & _). unfold ck in S1. rewrite Nat.mul_0_l in S1. cbn [skipn] in S1. rewrite <- S1 at 1. symmetry. apply firstn_skipn. }
  destruct (step_swap_raw idx i v s nx rt (skipn n (st_stack nx)) HSi Lidx Lss F L1 N1 Hst) as (v' & V1 & V2 & V3 & V4 & V5 & V6 & V7 & V8 & V9 & V10 & V11).
  { apply (node_length p Hf Hp HH). } { apply (node_bytes p Hf HH). } { exact Lws. } { exact Ho3. }
  exists v'. split; [exact V1|]. split; [|split; [exact V6|split; [exact V7|split; [exact V8|split; [exact V9|split; [exact V10|exact V11]]]]]].
  set (s' := swapped_cur nx) in *. set (nx' := swapped_next s) in *. change (swapped_cur nx) with s' in V4. change (swapped_next s) with nx' in V5.
  split; [exact V2|]. split; [exact V3|].
  exists s', (fun _ => None), 0, [(H, rt)].
  split; [exact V4|].
  assert (D0 : dig (idx + 1) i = 0) by (apply dig_full; exact F).
  assert (Ss : shape p s) by (destruct C3 as [C3 _ _ _]; exact (ru_shape _ _ _ _ _ _ _ _ _ _ C3)).
  split.
  - unfold cur. rewrite D0. split; [apply sinv_none|]. split; [split; [cbn; clear; lia|intros a [<-|[]]; reflexivity]|].
    split; [|split; [|split; [reflexivity|left; reflexivity]]].
    + apply (built_trav p Hf Hp HH Hk H2 HU sks seed _ _ Hsks Hseed).
      * apply done_shape, Sn.
      * apply done_built. exact (pt_built _ _ _ _ _ _ _ _ Q).
      * intros j t Ht. unfold s', swapped_cur in Ht. cbn [st_treehash set_treehash] in Ht. rewrite nth_error_map in Ht.
        destruct (nth_error (st_treehash nx) j) as [t'|] eqn:Et; [|discriminate]. injection Ht as <-.
        destruct Qr as (_ & _ & Qf). rewrite Forall_forall in Qf. apply nth_error_In in Et. destruct (Qf t' Et) as (G1 & G2 & G3 & G4). cbn. auto.
      * exact Son.
      * exact Stn.
    + unfold s', swapped_cur. cbn [st_next_leaf set_treehash]. apply Qr.
  - intros _. exists nx'. split; [exact V5|].
    pose proof (partial_0 p Hf Hk sks seed (N.of_nat i) (hi (idx + 1) (S i) + 1) Hsks Hseed s Ss) as P0. fold nx' in P0.
    split; [exact (pt_shape _ _ _ _ _ _ _ _ P0)|]. split.
    + destruct (trav_range p Hf Hp HH Hk H2 HU sks seed _ _ Hsks Hseed _ _ _ _ _ C1 C2 C3 C4) as (_ & _ & G). split; [reflexivity|]. split; [reflexivity|exact G].
    + intros _. exists 0. split; [apply Nat.le_0_l|]. split; [exact P0|]. unfold link. destruct (Nat.eqb_spec i 0) as [->|_]; [rewrite D0; reflexivity|right; rewrite D0].
      rewrite (cnt_after_full H H3) by (apply (full_lt H idx (S i)); [clear; lia|exact F]). rewrite (wk_0 H thc U HU), (tw_none thc) by reflexivity. rewrite !Nat.mul_0_r. clear. lia.
Qed.
End Mt.
