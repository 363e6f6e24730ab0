(** Fast core, single tree: key generation and signing agree with the specification. *)
From Verif Require Import Base Lib SpecRfc ModelUtils ModelParams ModelHash ModelWots ModelCommons ModelCore
  ModelCoreFast ProofUtils ProofHash ProofWots ProofCommons ProofTree ProofCore ProofSched ProofBds1 ProofBds2 ProofBds3 ProofBds4 ProofFast1.

Lemma wr_step (b d : bytes) o : o + length d <= length b ->
  exists b', wr b o d = Ok b' /\ length b' = length b /\ firstn (o + length d) b' = firstn o b ++ d /\
    (forall k, o + length d <= k -> skipn k b' = skipn k b).
Proof. intros Hl. destruct (wr_spec b o d Hl) as (b' & A & B & _ & C & D & _). exists b'. auto. Qed.
Lemma lt_pow_done (H j x : nat) : j <= H -> x < 2 ^ (H - j) -> ((N.of_nat x + 1) * 2 ^ N.of_nat j <= 2 ^ N.of_nat H)%N.
Proof.
  intros Hj Hx. rewrite !pow2_of_nat. replace (2 ^ H) with (2 ^ (H - j) * 2 ^ j) by (rewrite <- Nat.pow_add_r; f_equal; lia).
  rewrite Nat2N.inj_mul. apply N.mul_le_mono_r. lia.
Qed.

Section Refine.
Context {E : Env}.
Variable p : xmss_params.
Variable Hf : bytes -> bytes.
Hypothesis Hp : params_ok p.
Hypothesis HH : hash_total p Hf.
Notation P := (sp_of p Hf).
Notation n := (p_n p).
Notation H := (tree_height p).
Notation k := (bds_k p).
Notation thc := (thcount p).
Notation ib := (index_bytes p).
Notation wsig := (wots_sig_bytes p).
Hypothesis Hk : k < H.
Hypothesis H2 : H <> 2.
Notation U := ((H - k) / 2).
Hypothesis HU : Nat.min thc (H - 2) <= 2 * U.

Section One.
Variables (sks seed : bytes) (L T : N).
Hypothesis Hsks : length sks = n.
Hypothesis Hseed : length seed = n.
Notation nd := (node P sks seed L T).
Notation trav := (trav p Hf sks seed L T).

(** a complete tree: the traversal starts at leaf 0 *)
Lemma built_trav s base : shape p s -> built p nd (2 ^ N.of_nat H) 0 s ->
  (forall j t, nth_error (st_treehash s) j = Some t -> th_h t < 256 /\ th_stackusage t < 256 /\ th_completed t = 1%N /\ (th_next_idx t < 2 ^ 32)%N) ->
  st_stackoffset s = length base -> srepr n (st_stack s) (st_stacklevels s) base -> trav 0 (fun _ => None) base s.
Proof.
  intros Hs [Ba Bt Br] Hi Ho Hb. pose proof (po_th p Hp) as H30.
  assert (Hstk : stk p Hf sks seed L T (fun _ => None) base = base).
  { unfold stk. rewrite (segs_nil p Hf Hp HH Hk U HU sks seed L T Hsks Hseed); [reflexivity|]. intros i _. reflexivity. }
  assert (Hz : forall l, (0 / 2 ^ N.of_nat l = 0)%N) by (intros l; apply N.div_0_l; pose proof (pow2_pos l); lia).
  constructor.
  - constructor; [exact Hs|now rewrite Hstk|now rewrite Hstk|]. intros j t Ht. destruct (Hi j t Ht) as (I1 & I2 & I3 & I4).
    unfold th_ok. split; [exact I1|]. split; [exact I4|]. split; [exact I2|]. split; [exact I3|].
    assert (Hj : j < thc) by (rewrite <- (sh_th p s Hs); apply nth_error_Some; congruence).
    unfold tgt. rewrite Nat.div_0_l by (pose proof (pow2_pos_nat (j + 1)); lia). change (2 * (0 + 1) + 1) with 3. intros H3.
    specialize (Bt j Hj). unfold th_nd in Bt. rewrite Ht in Bt. apply Bt. left.
    apply (lt_pow_done H j 3); [unfold thcount in Hj; lia|exact H3].
  - intros l Hl. change (N.of_nat 0) with 0%N. rewrite Hz. change (sibling 0) with 1%N. apply Ba; [exact Hl|]. left.
    apply (lt_pow_done H l 1); [lia|]. apply Nat.lt_le_trans with (2 ^ 1); [cbn; lia|apply Nat.pow_le_mono_r; lia].
  - intros l Hl Hb'. change (N.of_nat 0) with 0%N in Hb'. rewrite N.bits_0 in Hb'. discriminate.
  - intros j r Hj1 Hj2 Hr. apply Br; try assumption. left. apply lt_pow_done; [lia|exact Hr].
Qed.

Lemma trav_range q u f base s : sinv H thc U q u f -> base_ok p base -> trav q f base s -> (st_next_leaf s < 2 ^ 32)%N -> in_range s.
Proof.
  intros Hi Hb [[Hs Ho Hst Hth] _ _ _] Hn. pose proof (po_th p Hp) as H30. split; [|split; [exact Hn|]].
  - rewrite Ho.
    assert (Hl : length (stk p Hf sks seed L T f base) <= H + 1).
    { apply lsorted_len; [apply (stk_sorted p Hf Hp HH Hk U HU sks seed L T Hsks Hseed q u f base Hi Hb)|].
      intros a Ha. unfold stk in Ha. apply in_app_or in Ha as [Ha|Ha].
      - pose proof (stk_lt p Hf Hp HH Hk U HU sks seed L T Hsks Hseed q u f base Hi Hb a Ha). lia.
      - destruct Hb as [_ Hb]. rewrite (Hb a Ha). lia. }
    change (2 ^ 32)%N with 4294967296%N. lia.
  - apply Forall_forall. intros t Ht. apply In_nth_error in Ht as [j Hj].
    destruct (Hth j t Hj) as (T1 & T2 & T3 & T4).
    assert (Hjt : j < thc) by (rewrite <- (sh_th p s Hs); apply nth_error_Some; congruence).
    unfold th_range. split; [exact T1|]. split; [exact T2|]. split; [exact T3|].
    destruct (f j); [destruct T4 as (_ & -> & _)|destruct T4 as [-> _]]; reflexivity.
Qed.

(** the updates that follow a round *)
Lemma trav_update q u f base s m sub : sinv H thc U q u f -> base_ok p base -> trav q f base s -> sub_ctx L T sub -> m < 128 ->
  exists s' f' r, bds_treehash_update p s (N.of_nat m) sks seed sub = Ok (s', N.of_nat r) /\ r <= m /\
    sinv H thc U q (u - (m - r)) f' /\ trav q f' base s' /\ st_next_leaf s' = st_next_leaf s /\ (0 < r -> forall i, f' i = None) /\
    tw thc f' + (m - r) = tw thc f.
Proof.
  intros Hi Hb [Hr Ha Hkp Hrt] Hsub Hm.
  destruct (bds_treehash_update_spec p Hf Hp HH Hk U HU sks seed L T Hsks Hseed q base sub Hb Hsub u f s m Hi Hr Hm)
    as (s' & f' & r & Heq & Hrm & Hi' & Hr' & (S1 & S2 & S3 & S4) & Hz & Hw).
  exists s', f', r. split; [exact Heq|]. split; [exact Hrm|]. split; [exact Hi'|]. split; [|split; [exact S4|split; [exact Hz|exact Hw]]].
  constructor; [exact Hr'|rewrite S1; exact Ha|rewrite S2; exact Hkp|rewrite S3; exact Hrt].
Qed.
Lemma trav_update_all q u f base s m sub : sinv H thc U q u f -> base_ok p base -> trav q f base s -> sub_ctx L T sub -> tw thc f < N.to_nat m ->
  exists s' f' r, bds_treehash_update p s m sks seed sub = Ok (s', r) /\
    sinv H thc U q 0 f' /\ trav q f' base s' /\ st_next_leaf s' = st_next_leaf s /\ (forall i, f' i = None) /\ r = via_char (m - N.of_nat (tw thc f)).
Proof.
  intros Hi Hb [Hr Ha Hkp Hrt] Hsub Hm.
  destruct (bds_treehash_update_all p Hf Hp HH Hk U HU sks seed L T Hsks Hseed q base sub Hb Hsub u f s m Hi Hr Hm)
    as (s' & f' & r & Heq & Hi' & Hr' & (S1 & S2 & S3 & S4) & Hz & Hrr).
  exists s', f', r. split; [exact Heq|]. split; [exact Hi'|]. split; [|split; [exact S4|split; [exact Hz|exact Hrr]]].
  constructor; [exact Hr'|rewrite S1; exact Ha|rewrite S2; exact Hkp|rewrite S3; exact Hrt].
Qed.

Definition ready (q : nat) (base : list (nat * bytes)) (s : bds_state) : Prop :=
  exists f u, sinv H thc U q u f /\ (u = 0 \/ forall i, f i = None) /\ trav q f base s.

Lemma Usmall : U < 128.
Proof. pose proof (po_th p Hp). apply Nat.div_lt_upper_bound; lia. Qed.
Lemma fU : N.shiftr (f_tree_height p - f_bds_k p) 1 = N.of_nat U.
Proof.
  rewrite N.shiftr_div_pow2. change (2 ^ 1)%N with (N.of_nat 2). unfold tree_height, bds_k. rewrite Nat2N.inj_div, Nat2N.inj_sub, !N2Nat.id. reflexivity.
Qed.

Lemma ready_round q base s sub : base_ok p base -> ready q base s -> q + 1 < 2 ^ H -> sub_ctx L T sub ->
  exists s1 s2 r, bds_round p s (N.of_nat q) sks seed sub = Ok s1 /\
    bds_treehash_update p s1 (N.of_nat U) sks seed sub = Ok (s2, r) /\
    ready (q + 1) base s2 /\ st_next_leaf s2 = st_next_leaf s.
Proof.
  intros Hb (f & u & Hi & Hu & Ht) Hq Hsub. pose proof (po_th p Hp) as H30.
  destruct (bds_round_spec p Hf Hp HH Hk U HU sks seed L T Hsks Hseed q u f base s sub ltac:(lia) Hi Hu Hq Ht Hsub) as (s1 & E1 & T1 & N1).
  pose proof (reinit_sinv H thc U HU q u f Hi Hu) as Hi1.
  destruct (trav_update (q + 1) U _ base s1 U sub Hi1 Hb T1 Hsub Usmall) as (s2 & f' & r & E2 & Hr & Hi2 & T2 & N2 & Hz & _).
  exists s1, s2, (N.of_nat r). split; [exact E1|]. split; [exact E2|]. split; [|congruence].
  exists f', (U - (U - r)). split; [exact Hi2|]. split; [|exact T2]. destruct (Nat.eq_dec r 0) as [->|]; [left; lia|right; apply Hz; lia].
Qed.

(** the stored authentication path is the one of the specification *)
Lemma trav_auth q f base s : trav q f base s -> rd (st_auth s) 0 (H * n) = Ok (concat (auth_path P sks seed L T (N.of_nat q))).
Proof.
  intros [[Hs _ _ _] Ha _ _]. rewrite (rd_all_ck n (st_auth s) H (sh_auth p s Hs)). f_equal. f_equal.
  unfold auth_path. rewrite (sp_th_of p Hf Hp). apply map_ext_in. intros l Hl. apply in_seq in Hl. apply Ha. lia.
Qed.
End One.

(** *** one tree *)
Section Single.
Hypothesis Hd : p_d p = 1.
Variables (sks prfk rt seed : bytes).
Hypothesis Hs1 : length sks = n.
Hypothesis Hs2 : length prfk = n.
Hypothesis Hs3 : length rt = n.
Hypothesis Hs4 : length seed = n.

Lemma single_ib : ib = 4.
Proof. rewrite (po_ib p Hp). unfold sp_ib, sp_of. cbn [sp_d]. now rewrite Hd. Qed.
Lemma single_h : full_height p = H.
Proof. rewrite (po_h p Hp), Hd. lia. Qed.
Lemma single_leaf q : (q < 2 ^ N.of_nat H)%N -> tree_of P q 0 = 0%N /\ leaf_of P q 0 = q.
Proof.
  intros Hq. unfold tree_of, leaf_of. rewrite (sp_th_of p Hf Hp). rewrite Nat.mul_1_r, Nat.mul_0_r.
  change (2 ^ N.of_nat 0)%N with 1%N. rewrite N.div_1_r. rewrite N.div_small, N.mod_small by exact Hq. auto.
Qed.

Lemma fast_sign_spec q s sm m smlen post : q + 1 < 2 ^ H -> ready sks seed 0 0 q [] s -> (st_next_leaf s < 2 ^ 32)%N ->
  sig_bytes p + length m <= length sm ->
  exists s', ready sks seed 0 0 (q + 1) [] s' /\ (st_next_leaf s' < 2 ^ 32)%N /\
    fast_xmss_core_sign p (sk_layout (toByte (N.of_nat q) ib) sks prfk rt seed (store_state p s ++ post)) sm smlen m =
      Ok (mkSign 0 (sk_layout (toByte (N.of_nat (q + 1)) ib) sks prfk rt seed (store_state p s' ++ post))
         (mt_sign P sks prfk rt seed (N.of_nat q) m ++ m ++ skipn (sig_bytes p + length m) sm) (sig_bytes p + length m)).
Proof.
  intros Hq Hready Hnl Hsm. pose proof (po_th p Hp) as H30. pose proof single_ib as Hib. pose proof (po_pad p Hp) as Hpad.
  pose proof (sig_bytes_eq p Hp) as Hsb. rewrite Hd, Nat.mul_1_l in Hsb. unfold layer_bytes in Hsb.
  pose proof Hready as (f0 & u0 & Hi0 & _ & Ht0). assert (Hb0 : base_ok p []) by (split; [cbn; lia|intros a []]).
  pose proof (trav_range sks seed 0 0 Hs1 Hs4 q u0 f0 [] s Hi0 Hb0 Ht0 Hnl) as Hrange.
  assert (Hshape : shape p s) by (destruct Ht0 as [[Hx _ _ _] _ _ _]; exact Hx).
  assert (Hqn : (N.of_nat q < 2 ^ N.of_nat H)%N) by (rewrite pow2_of_nat; lia).
  assert (Hq30 : q + 1 < 2 ^ 30) by (apply Nat.lt_le_trans with (2 ^ H); [exact Hq|apply Nat.pow_le_mono_r; lia]).
  assert (Hq32 : (N.of_nat (q + 1) < 2 ^ 32)%N).
  { apply N.lt_trans with (N.of_nat (2 ^ 30)); [lia|]. rewrite <- pow2_of_nat. reflexivity. }
  unfold fast_xmss_core_sign. cbv zeta. rewrite Hib.
  set (pre := toByte (N.of_nat q) 4 ++ sks ++ prfk ++ rt ++ seed).
  assert (Hpre : length pre = 4 + 4 * n) by (unfold pre; rewrite !app_length, toByte_length; lia).
  assert (Hsk : sk_layout (toByte (N.of_nat q) 4) sks prfk rt seed (store_state p s ++ post) = pre ++ concat (map (store_state p) [s]) ++ [] ++ post).
  { unfold sk_layout, pre. cbn [map concat]. rewrite app_nil_r, <- !app_assoc. reflexivity. }
  rewrite Hsk. rewrite (deserialize_spec p Hk ltac:(lia) ltac:(lia) pre [s] [] post);
    [|rewrite Hib; exact Hpre|unfold states_ok, nstates; rewrite Hd; cbn [length]; split; [reflexivity|split; auto]|rewrite Hd; reflexivity].
  rewrite bind_ok. rewrite <- Hsk. unfold sk_layout at 1.
  rewrite (rd_at _ [] (toByte (N.of_nat q) 4) (sks ++ prfk ++ rt ++ seed ++ store_state p s ++ post)) by (reflexivity || now rewrite toByte_length).
  rewrite bind_ok, ull_field by (change (256 ^ N.of_nat 4)%N with (2 ^ 32)%N; lia). rewrite bind_ok.
  unfold shl1_ull. rewrite single_h. destruct (Nat.ltb_spec H 64) as [_|]; [|lia]. rewrite bind_ok.
  destruct (N.leb_spec (2 ^ N.of_nat H - 1) (N.of_nat q)) as [Hbad|_]; [rewrite pow2_of_nat in Hbad; lia|].
  unfold fast_sign_body. cbv zeta. rewrite Hib. unfold sk_layout. set (ext := store_state p s ++ post).
  set (ixb := toByte (N.of_nat q) 4). assert (Hixb : length ixb = 4) by apply toByte_length.
  rewrite (rd_at _ ixb sks (prfk ++ rt ++ seed ++ ext)) by (reflexivity || lia). rewrite bind_ok.
  rewrite (rd_at _ (ixb ++ sks) prfk (rt ++ seed ++ ext)) by (rewrite <- ?app_assoc, ?app_length; reflexivity || lia). rewrite bind_ok.
  rewrite (rd_at _ (ixb ++ sks ++ prfk ++ rt) seed ext) by (rewrite <- ?app_assoc, ?app_length; reflexivity || lia). rewrite bind_ok.
  rewrite (rdc_ok [s] 0 s) by (cbn; lia). rewrite bind_ok. cbn [nth].
  rewrite ull_to_bytes_spec. replace (N.of_nat q + 1)%N with (N.of_nat (q + 1)) by lia.
  rewrite (wr_at _ [] ixb (sks ++ prfk ++ rt ++ seed ++ ext)) by (rewrite ?toByte_length; reflexivity || lia). rewrite bind_ok. cbn [app].
  set (ix' := toByte (N.of_nat (q + 1)) 4). assert (Hix' : length ix' = 4) by apply toByte_length.
  rewrite ull_to_bytes_spec, (prf_spec p Hf HH) by (rewrite ?toByte_length; reflexivity || lia). rewrite bind_ok.
  set (r := PRF P prfk (toByte (N.of_nat q) 32)). assert (Hr : length r = n) by apply (PRF_length p Hf HH).
  destruct (wr_step sm m (sig_bytes p) Hsm) as (sm1 & W1 & W1l & W1f & W1s). rewrite W1, bind_ok.
  rewrite (rd_at _ (ix' ++ sks ++ prfk) rt (seed ++ ext)) by (rewrite <- ?app_assoc, ?app_length; reflexivity || lia). rewrite bind_ok.
  destruct (Nat.ltb_spec (sig_bytes p) (padding_len p + 3 * n)) as [?|_]; [lia|].
  set (tail := skipn (sig_bytes p + length m) sm) in *.
  assert (Hsm1 : skipn (sig_bytes p) sm1 = m ++ tail).
  { rewrite <- (firstn_skipn (sig_bytes p + length m) sm1) at 1. rewrite W1f, W1s by lia. rewrite <- app_assoc. apply skipn_app_len. rewrite firstn_length. lia. }
  destruct (hash_message_spec p Hf HH (fun _ => Ok r) rt (N.of_nat q) sm1 (sig_bytes p - padding_len p - 3 * n) (length m) r m)
    as (sm2 & Hhm & Hsm2l & _ & Hsm2t).
  { reflexivity. } { lia. } { exact Hr. } { lia. } { lia. }
  { replace (sig_bytes p - padding_len p - 3 * n + padding_len p + 3 * n) with (sig_bytes p) by lia.
    rewrite Hsm1. symmetry. apply firstn_app_len. lia. }
  rewrite Hhm, bind_ok. replace (firstn n rt) with rt by (symmetry; apply firstn_all2; lia).
  replace (sig_bytes p - padding_len p - 3 * n + padding_len p + 3 * n) with (sig_bytes p) in Hsm2t by lia. rewrite Hsm1 in Hsm2t.
  set (M := H_msg P r rt (N.of_nat q) m).
  assert (HMl : length M = n) by apply (Hf_length p Hf HH). assert (HMb : bytes_ok M) by apply (Hf_bytes p Hf HH).
  rewrite ull_to_bytes_spec. fold ixb.
  destruct (wr_step sm2 ixb 0 ltac:(lia)) as (sm3 & W3 & W3l & W3f & W3s). rewrite W3, bind_ok. cbn [firstn app Nat.add] in W3f, W3s.
  destruct (wr_step sm3 r 4 ltac:(lia)) as (sm4 & W4 & W4l & W4f & W4s). rewrite W4, bind_ok. rewrite Hixb in W3f. rewrite W3f in W4f.
  destruct (wots_sign_spec p Hf Hp HH seed 0 0 (N.of_nat q) Hs4 sks M (set_ots_addr (set_type addr_zero 0) (N.of_nat q)) Hs1 HMb HMl) as [a' [Hws Ha']].
  { split; [repeat split|reflexivity]. }
  rewrite Hws, bind_ok. clear Hws.
  set (wsg := concat (wots_sig P seed 0 0 (N.of_nat q) sks M)).
  assert (Hwsg : length wsg = wsig).
  { unfold wsg. rewrite (chunked_length n) by apply (wots_sig_chunked p Hf HH).
    rewrite (wots_sig_length p Hf Hp), (po_wsig p Hp). reflexivity. }
  destruct (wr_step sm4 wsg (4 + n) ltac:(lia)) as (sm5 & W5 & W5l & W5f & W5s). rewrite W5, bind_ok. rewrite Hr in W4f. rewrite W4f in W5f.
  rewrite (trav_auth sks seed 0 0 Hs1 Hs4 q f0 [] s Ht0), bind_ok.
  set (au := concat (auth_path P sks seed 0 0 (N.of_nat q))).
  assert (Haul : length au = H * n).
  { unfold au. rewrite (chunked_length n) by apply (auth_path_chunked p Hf Hp HH). now rewrite (auth_path_length p Hf Hp). }
  destruct (wr_step sm5 au (4 + n + wsig) ltac:(lia)) as (sm6 & W6 & W6l & W6f & W6s). rewrite W6, bind_ok. rewrite Hwsg in W5f. rewrite W5f in W6f.
  unfold shl1_uint. destruct (Nat.ltb_spec H 32) as [_|]; [|lia]. rewrite bind_ok.
  destruct (N.ltb_spec (N.of_nat q) (2 ^ N.of_nat H - 1)) as [_|Hbad]; [|rewrite pow2_of_nat in Hbad; lia].
  assert (Hsub : sub_ctx 0 0 a') by (destruct Ha' as [(A0 & A1 & A2 & _) _]; repeat split; assumption).
  destruct (ready_round sks seed 0 0 Hs1 Hs4 q [] s a' Hb0 Hready Hq Hsub) as (t1 & t2 & rr & R1 & R2 & R3 & R4).
  rewrite R1, bind_ok, fU, R2, bind_ok, bind_ok.
  destruct (wr_step sm6 m (4 + n + wsig + H * n) ltac:(lia)) as (sm7 & W7 & W7l & W7f & W7s). rewrite W7, bind_ok. rewrite Haul in W6f. rewrite W6f in W7f.
  rewrite wrc_ok, bind_ok by (cbn; lia). cbn [upd].
  exists t2. split; [exact R3|]. split; [rewrite R4; exact Hnl|].
  pose proof R3 as (f2 & u2 & Hi2 & _ & Ht2). pose proof (trav_range sks seed 0 0 Hs1 Hs4 (q + 1) u2 f2 [] t2 Hi2 Hb0 Ht2 ltac:(rewrite R4; exact Hnl)) as Hrange2.
  assert (Hshape2 : shape p t2) by (destruct Ht2 as [[Hx _ _ _] _ _ _]; exact Hx).
  set (pre' := ix' ++ sks ++ prfk ++ rt ++ seed).
  replace (ix' ++ sks ++ prfk ++ rt ++ seed ++ ext) with (pre' ++ store_state p s ++ post) by (unfold pre', ext; rewrite <- !app_assoc; reflexivity).
  rewrite (serialize_spec p Hk ltac:(lia) ltac:(lia) pre' (store_state p s) post [t2] []);
    [|unfold pre'; rewrite !app_length; lia
     |unfold ser_bytes, nstates; rewrite Hd, (store_state_length p Hk ltac:(lia) s Hshape); lia
     |unfold states_ok, nstates; rewrite Hd; cbn [length]; split; [reflexivity|split; auto]|rewrite Hd; reflexivity].
  rewrite bind_ok. f_equal. f_equal.
  - unfold pre', ix'. cbn [map concat app]. rewrite app_nil_r, <- !app_assoc. reflexivity.
  - rewrite <- (firstn_skipn (sig_bytes p + length m) sm7).
    replace (sig_bytes p + length m) with (4 + n + wsig + H * n + length m) at 1 by lia. rewrite W7f.
    rewrite (W7s (sig_bytes p + length m)) by lia. rewrite (W6s (sig_bytes p + length m)) by lia. rewrite (W5s (sig_bytes p + length m)) by lia.
    rewrite (W4s (sig_bytes p + length m)) by lia. rewrite (W3s (sig_bytes p + length m)) by lia.
    rewrite (Nat.add_comm (sig_bytes p)), <- skipn_skipn, Hsm2t, skipn_app_len by reflexivity.
    unfold mt_sign. cbv zeta. fold r M. cbn [sp_d sp_of]. rewrite Hd. cbn [seq map concat]. unfold layer_sig. cbv zeta.
    destruct (single_leaf (N.of_nat q) Hqn) as [Htr Hlf]. rewrite Htr, Hlf. cbn [layer_msg]. change (N.of_nat 0) with 0%N. fold wsg au.
    replace (sp_ib P) with 4 by (rewrite <- Hib; exact (po_ib p Hp)). fold ixb. rewrite app_nil_r, <- !app_assoc. reflexivity.
  - lia.
Qed.

(** key generation: the regular part and the initial traversal state *)
Lemma fast_keypair_spec pk sk r : 2 * n <= length pk -> bytes_ok sk -> ib + 4 * n + state_bytes p <= length sk ->
  let sks := rand_take r 0 n in let prfk := rand_take r n n in let pubs := rand_take r (2 * n) n in
  let rt := mt_root P sks pubs in
  exists s, ready sks pubs 0 0 0 [] s /\ st_next_leaf s = 0%N /\ st_stack s = firstn ((H + 1) * n) (skipn (ib + 4 * n) sk) /\
  fast_xmss_core_keypair p pk sk r =
    Ok (0%Z, rt ++ pubs ++ skipn (2 * n) pk,
        sk_layout (toByte 0 ib) sks prfk rt pubs (store_state p s ++ skipn (ib + 4 * n + state_bytes p) sk)).
Proof.
  intros Hpk Hbok Hskl sks0 prfk0 pubs0 rt0. pose proof (po_th p Hp) as H30. pose proof single_ib as Hib. rewrite Hib in *.
  unfold fast_xmss_core_keypair. cbv zeta. rewrite Hib.
  destruct (cut sk 4) as (x0 & y0 & Ek & Hx0 & _); [lia|].
  destruct (cut y0 (2 * n)) as (x1 & y1 & Ek1 & Hx1 & _); [rewrite Ek, app_length in Hskl; lia|]. subst y0.
  destruct (cut y1 n) as (x2 & y2 & Ek2 & Hx2 & _); [rewrite Ek, !app_length in Hskl; lia|]. subst y1.
  destruct (cut y2 n) as (x3 & y3 & Ek3 & Hx3 & _); [rewrite Ek, !app_length in Hskl; lia|]. subst y2.
  destruct (cut y3 (state_bytes p)) as (x4 & post & Ek4 & Hx4 & _); [rewrite Ek, !app_length in Hskl; lia|]. subst y3.
  assert (Hb4 : bytes_ok x4) by (rewrite Ek in Hbok; rewrite !bytes_ok_app in Hbok; tauto).
  destruct (state_of_bytes p Hk ltac:(lia) x4 Hx4 Hb4) as (s & Hst & Hsh & Hrg).
  assert (Hpost : skipn (4 + 4 * n + state_bytes p) sk = post).
  { rewrite Ek. rewrite !app_assoc. apply skipn_app_len. rewrite !app_length. lia. }
  assert (Hstk : st_stack s = firstn ((H + 1) * n) (skipn (4 + 4 * n) sk)).
  { rewrite Ek. rewrite !app_assoc, <- (app_assoc _ x4 post), skipn_app_len by (rewrite !app_length; lia).
    rewrite <- Hst. unfold store_state. rewrite <- !app_assoc. symmetry. apply firstn_app_len. symmetry. apply (sh_stack p s Hsh). }
  rewrite Hpost, <- Hstk. clear Hpost Hbok Hskl Hstk. subst sk.
  replace (x0 ++ x1 ++ x2 ++ x3 ++ x4 ++ post) with ((x0 ++ x1 ++ x2 ++ x3) ++ concat (map (store_state p) [s]) ++ [] ++ post).
  2: { cbn [map concat]. rewrite Hst, app_nil_r, <- !app_assoc. reflexivity. }
  rewrite (deserialize_spec p Hk ltac:(lia) ltac:(lia) (x0 ++ x1 ++ x2 ++ x3) [s] [] post);
    [|rewrite !app_length, Hib; lia|unfold states_ok, nstates; rewrite Hd; cbn [length]; split; [reflexivity|split; auto]|rewrite Hd; reflexivity].
  rewrite bind_ok. rewrite (rdc_ok [s] 0 s) by (cbn; lia). rewrite bind_ok. cbn [nth].
  cbn [map concat]. rewrite Hst, app_nil_r, <- !app_assoc.
  rewrite (wr_at _ [] x0 (x1 ++ x2 ++ x3 ++ [] ++ x4 ++ post)) by (reflexivity || (rewrite repeat_length; lia)). rewrite bind_ok. cbn [app].
  assert (Hz4 : repeat 0%N 4 = toByte 0 4) by reflexivity. rewrite Hz4. set (z := toByte 0 4). assert (Hz : length z = 4) by apply toByte_length.
  assert (Hrt2 : rand_take r 0 (2 * n) = sks0 ++ prfk0).
  { unfold sks0, prfk0. replace (2 * n) with (n + n) by lia. rewrite rand_take_app. reflexivity. }
  assert (Ls : length sks0 = n) by apply rand_take_length. assert (Lp : length prfk0 = n) by apply rand_take_length. assert (Lb : length pubs0 = n) by apply rand_take_length.
  rewrite Hrt2. rewrite (wr_at _ z x1 (x2 ++ x3 ++ x4 ++ post)) by (reflexivity || (rewrite ?app_length; lia)). rewrite bind_ok.
  change (rand_take r (2 * n) n) with pubs0.
  rewrite (wr_at _ (z ++ (sks0 ++ prfk0) ++ x2) x3 (x4 ++ post)) by ((rewrite <- !app_assoc; reflexivity) || (rewrite ?app_length; lia)). rewrite bind_ok.
  rewrite (rd_at _ (z ++ (sks0 ++ prfk0) ++ x2) pubs0 (x4 ++ post)) by (reflexivity || (rewrite ?app_length; lia)). rewrite bind_ok.
  destruct (cut pk n) as (p0 & q0 & Ep & Hp0 & _); [lia|].
  destruct (cut q0 n) as (p1 & q1 & Ep1 & Hp1 & _); [rewrite Ep, app_length in Hpk; lia|]. subst q0.
  assert (Hq1 : skipn (2 * n) pk = q1) by (rewrite Ep, app_assoc; apply skipn_app_len; rewrite app_length; lia). rewrite Hq1. subst pk.
  rewrite (wr_at _ p0 p1 q1) by (reflexivity || lia). rewrite bind_ok.
  rewrite (rd_at _ z sks0 (prfk0 ++ x2 ++ pubs0 ++ x4 ++ post)) by ((rewrite <- !app_assoc; reflexivity) || lia). rewrite bind_ok.
  set (s0 := set_next_leaf (set_stackoffset s 0) 0%N).
  assert (Hsh0 : shape p s0) by (destruct Hsh; constructor; assumption).
  destruct (treehash_init_spec p Hf Hp HH Hk sks0 pubs0 0 0 Ls Lb s0 addr_zero H2 Hsh0)
    as (s1 & Heq & Sh1 & Bu1 & Id1 & O1 & N1 & K1 & _).
  { intros j t Ht. destruct Hrg as (_ & _ & Hrg). rewrite Forall_forall in Hrg. apply (Hrg t). now apply nth_error_In in Ht. }
  { repeat split. }
  rewrite Heq, bind_ok. clear Heq.
  assert (Hroot : root P sks0 pubs0 0 0 = rt0).
  { unfold rt0, mt_root. cbn [sp_d sp_of]. rewrite Hd. reflexivity. }
  rewrite Hroot. assert (Lr : length rt0 = n) by (rewrite <- Hroot; apply (node_length p Hf Hp HH)).
  rewrite (wr_at _ [] p0 (pubs0 ++ q1)) by (reflexivity || lia). rewrite bind_ok. cbn [app].
  rewrite (wr_at _ (z ++ sks0 ++ prfk0) x2 (pubs0 ++ x4 ++ post)) by ((rewrite <- !app_assoc; reflexivity) || (rewrite ?app_length; lia)). rewrite bind_ok.
  rewrite wrc_ok, bind_ok by (cbn; lia). cbn [upd].
  assert (Hready : ready sks0 pubs0 0 0 0 [] s1).
  { exists (fun _ => None), 0. split; [apply sinv_none|]. split; [left; reflexivity|].
    apply built_trav; try assumption; [|exact I].
    intros j t Ht. destruct (Id1 j t Ht) as (I1 & I2 & I3 & I4). rewrite I2.
    assert (Hj : j < thc) by (rewrite <- (sh_th p s1); [apply nth_error_Some; congruence|assumption]).
    pose proof (po_th p Hp). unfold thcount in Hj. split; [lia|]. repeat split; auto. lia. }
  exists s1. split; [exact Hready|]. split; [exact N1|]. split; [exact K1|].
  pose proof Hready as (f2 & u2 & Hi2 & _ & Ht2).
  assert (Hb0 : base_ok p []) by (split; [cbn; lia|intros a []]).
  pose proof (trav_range sks0 pubs0 0 0 Ls Lb 0 u2 f2 [] s1 Hi2 Hb0 Ht2 ltac:(rewrite N1; reflexivity)) as Hrange2.
  set (pre' := (z ++ sks0 ++ prfk0) ++ rt0 ++ pubs0).
  replace ((z ++ sks0 ++ prfk0) ++ rt0 ++ pubs0 ++ x4 ++ post) with (pre' ++ x4 ++ post) by (unfold pre'; rewrite <- !app_assoc; reflexivity).
  rewrite (serialize_spec p Hk ltac:(lia) ltac:(lia) pre' x4 post [s1] []);
    [|unfold pre'; rewrite !app_length, Hib; lia
     |unfold ser_bytes, nstates; rewrite Hd, Hx4; lia
     |unfold states_ok, nstates; rewrite Hd; cbn [length]; split; [reflexivity|split; auto]|rewrite Hd; reflexivity].
  rewrite bind_ok. do 2 f_equal. unfold pre', sk_layout, z. cbn [map concat app]. rewrite app_nil_r, <- !app_assoc. reflexivity.
Qed.
End Single.
End Refine.
