(** C71 behind the public API. *)
From Coq Require Import ZArith.
From Verif Require Import Base ModelUtils ModelParams ModelHash ModelWots ModelCommons ModelCore ModelCoreFast ModelXmss.
From Verif Require Import SpecRfc SpecFips202 SpecParams SpecApi SpecComp SpecFast Lib ProofUtils ProofHash ProofCore ProofParams ProofApi ProofHistory ProofMain.
From Verif Require Import ProofSched ProofBds1 ProofBds2 ProofBds3 ProofBds4 ProofFast1 ProofFast2 ProofFast3 ProofFast4 ProofFast5 ProofFast6 ProofFast7 ProofTree ProofMt1 ProofMt2 ProofMt4 ProofMt5 ProofMt6 ProofMt7.
From Verif Require Import ModelCost ProofCost ProofCost2 ProofCost3 ProofCost4 SpecCost.

Section Er.
Context {E : Env}.
Lemma cost_ref_keypair mt pk sk oid rnd : out (ref_keypair_cost mt pk sk oid rnd) = keypair mt ref_core pk sk oid rnd.
Proof. unfold ref_keypair_cost, keypair. destruct mt; rewrite (er_kw _ _ _ ref_xmssmt_core_keypair) by apply er_ref_keypair; reflexivity. Qed.
Lemma cost_ref_sign mt sk sm smlen m : out (ref_sign_cost mt sk sm smlen m) = sign mt ref_core sk sm smlen m.
Proof. unfold ref_sign_cost, sign. destruct mt; rewrite (er_sw _ _ _ ref_xmssmt_core_sign) by apply er_ref_sign; reflexivity. Qed.
Lemma cost_fast_keypair mt pk sk oid rnd : out (fast_keypair_cost mt pk sk oid rnd) = keypair mt fast_core pk sk oid rnd.
Proof.
  unfold fast_keypair_cost, keypair. destruct mt; [rewrite (er_kw _ _ _ fast_xmssmt_core_keypair) by apply er_mt_keypair|rewrite (er_kw _ _ _ fast_xmss_core_keypair) by apply er_fast_keypair]; reflexivity.
Qed.
Lemma cost_fast_sign mt sk sm smlen m : out (fast_sign_cost mt sk sm smlen m) = sign mt fast_core sk sm smlen m.
Proof.
  unfold fast_sign_cost, sign. destruct mt; [rewrite (er_sw _ _ _ fast_xmssmt_core_sign) by apply er_mt_sign|rewrite (er_sw _ _ _ fast_xmss_core_sign) by apply er_fast_sign]; reflexivity.
Qed.
End Er.

(** the wrappers add nothing *)
Section Wrap.
Context {E : Env}.
Lemma kw_runs parse skb kp pk sk oid rnd p K (Q : Z * bytes * bytes -> N -> Prop) : parse skb uninit_params oid = Ok (Some p) ->
  (forall pk sk, runs (kp p pk sk rnd) K (fun _ l => l = K)) -> runs (keypair_wrapper_c parse skb kp pk sk oid rnd) K (fun _ l => l = K).
Proof.
  intros Hparse Hkp. unfold keypair_wrapper_c. rewrite Hparse, cbind_ok. rstep. rstep.
  apply (runs_bind _ _ K (fun _ => 0%N) _ (fun _ l => l = K)); [apply Hkp|lia|].
  intros [[zrc zpk] zsk] zl _ _ ->. split; [|lia]. apply runs_ok. lia.
Qed.
Lemma sw_runs parse skb sg sk sm smlen m x oid p K (Q : Z -> N -> Prop) : oid_of_bytes sk = Ok oid -> parse skb uninit_params oid = Ok (Some p) ->
  skipn XMSS_OID_LEN sk = x -> runs (sg p x sm smlen m) K (fun o l => Q (so_rc o) l) -> runs (sign_wrapper_c parse skb sg sk sm smlen m) K (fun o l => Q (so_rc o) l).
Proof.
  intros Ho Hparse Hx Hsg. unfold sign_wrapper_c. rewrite Ho, cbind_ok, Hparse, cbind_ok. rewrite Hx.
  destruct Hsg as [S1 S2].
  apply (runs_bind _ _ K (fun _ => 0%N) _ (fun o l => (l <= K)%N /\ Q (so_rc o) l)); [split; [exact S1|intros o Hq; split; [exact S1|now apply S2]]|lia|].
  intros o zl _ _ [HK Hq]. split; [|lia]. apply runs_ok. cbn [so_rc]. now rewrite N.add_0_r.
Qed.
End Wrap.

Section Row.
Context {E : Env}.
Variable mt : bool.
Variable r : row.
Hypothesis Hr : In r (rows mt).
Notation pr := (row_params r (sk_ref r)).
Notation pf := (row_params r (sk_fast r)).

Lemma row_B skb : (2 ^ N.of_nat (tree_height (row_params r skb)))%N = tree_leaves r.
Proof. unfold tree_leaves. rewrite (row_th _ _ (row_hash r)), sp_of_row. reflexivity. Qed.
Lemma ref_keypair_effort pk sk rnd : (leaves (ref_keypair_cost mt pk sk (r_oid r) rnd) <= tree_leaves r)%N /\
  (forall x, keypair mt ref_core pk sk (r_oid r) rnd = Ok x -> leaves (ref_keypair_cost mt pk sk (r_oid r) rnd) = tree_leaves r).
Proof.
  assert (Hc : runs (ref_keypair_cost mt pk sk (r_oid r) rnd) (tree_leaves r) (fun _ l => l = tree_leaves r)).
  { apply (kw_runs _ _ _ _ _ _ _ pr _ (fun _ _ => True)); [exact (parse_accept_ref mt r uninit_params Hr)|]. intros pk1 sk1. pose proof (n_ref_keypair pr pk1 sk1 rnd) as X. rewrite row_B in X. exact X. }
  destruct Hc as [C1 C2]. split; [exact C1|]. intros x Hx. apply (C2 x). now rewrite cost_ref_keypair.
Qed.
Lemma fast_keypair_effort pk sk rnd : (leaves (fast_keypair_cost mt pk sk (r_oid r) rnd) <= N.of_nat (r_d r) * tree_leaves r)%N /\
  (forall x, keypair mt fast_core pk sk (r_oid r) rnd = Ok x -> leaves (fast_keypair_cost mt pk sk (r_oid r) rnd) = (N.of_nat (r_d r) * tree_leaves r)%N).
Proof.
  assert (Hc : runs (fast_keypair_cost mt pk sk (r_oid r) rnd) (N.of_nat (r_d r) * tree_leaves r) (fun _ l => l = (N.of_nat (r_d r) * tree_leaves r)%N)).
  { apply (kw_runs _ _ _ _ _ _ _ pf _ (fun _ _ => True)); [exact (parse_accept_fast mt r uninit_params Hr)|]. intros pk1 sk1.
    destruct mt.
    - pose proof (n_mt_keypair pf pk1 sk1 rnd) as X. rewrite row_dd, row_B in X. apply X. pose proof (fp_d true r Hr) as Y. rewrite row_dd in Y. lia.
    - pose proof (n_fast_keypair pf pk1 sk1 rnd) as X.
      assert (D1 : r_d r = 1). { assert (Hx : forallb (fun r => r_d r =? 1) (rows false) = true) by (vm_compute; reflexivity). rewrite forallb_forall in Hx. apply Nat.eqb_eq, Hx, Hr. }
      rewrite D1. change (N.of_nat 1) with 1%N. rewrite N.mul_1_l. rewrite row_B in X. exact X. }
  destruct Hc as [C1 C2]. split; [exact C1|]. intros x Hx. apply (C2 x). now rewrite cost_fast_keypair.
Qed.
Lemma key_oid len sk : key_of r len sk -> oid_of_bytes sk = Ok (r_oid r).
Proof. intros (L & F4 & _). rewrite <- (firstn_skipn 4 sk), F4. apply (row_oid_bytes mt r _ Hr). Qed.
Lemma ref_sign_effort sk sm smlen m : key_of r (sk_size r) sk ->
  (leaves (ref_sign_cost mt sk sm smlen m) <= N.of_nat (r_d r) * tree_leaves r)%N /\
  (forall o, sign mt ref_core sk sm smlen m = Ok o ->
     leaves (ref_sign_cost mt sk sm smlen m) = if (so_rc o =? 0)%Z then (N.of_nat (r_d r) * tree_leaves r)%N else 0%N).
Proof.
  intros Hk.
  assert (Hc : runs (ref_sign_cost mt sk sm smlen m) (N.of_nat (r_d r) * tree_leaves r) (fun o l => l = if (so_rc o =? 0)%Z then (N.of_nat (r_d r) * tree_leaves r)%N else 0%N)).
  { apply (sw_runs _ _ _ _ _ _ _ _ (r_oid r) pr _ (fun z l => l = if (z =? 0)%Z then (N.of_nat (r_d r) * tree_leaves r)%N else 0%N) (key_oid _ _ Hk) (parse_accept_ref mt r uninit_params Hr) eq_refl).
    pose proof (n_ref_sign pr (skipn XMSS_OID_LEN sk) sm smlen m) as X. rewrite row_B, row_dd in X. exact X. }
  destruct Hc as [C1 C2]. split; [exact C1|]. intros o Ho. apply (C2 o). now rewrite cost_ref_sign.
Qed.
Lemma row_upd : upd_N pf = N.of_nat (r_h r / r_d r / 2).
Proof. unfold upd_N. rewrite (fU pf). change (bds_k pf) with 0. rewrite Nat.sub_0_r, (fp_th r). reflexivity. Qed.
Lemma row_small : r_h r / r_d r <= 20.
Proof.
  assert (Hx : forallb (fun r => (r_h r / r_d r <=? 20)) (rows mt) = true) by (destruct mt; vm_compute; reflexivity).
  rewrite forallb_forall in Hx. apply Nat.leb_le, Hx, Hr.
Qed.
Lemma fast_sign_effort sk sm smlen m : key_of r (fast_size r) sk ->
  mt = false \/ r_d r <= r_h r / r_d r / 2 + 1 \/ ~ many_trees_end r (sk_index r sk) ->
  (leaves (fast_sign_cost mt sk sm smlen m) <= sign_effort mt r)%N.
Proof.
  intros Hk Hfew. unfold sign_effort.
  assert (Hc : runs (fast_sign_cost mt sk sm smlen m) (sign_effort mt r) (fun _ _ => True)); [|exact (proj1 Hc)].
  apply (sw_runs _ _ _ _ _ _ _ _ (r_oid r) pf _ (fun _ _ => True) (key_oid _ _ Hk) (parse_accept_fast mt r uninit_params Hr) eq_refl).
  unfold sign_effort. pose proof row_upd as Ru. pose proof row_small as Rs.
  assert (Rs2 : r_h r / r_d r / 2 <= 10) by (apply Nat.div_le_upper_bound; lia).
  pose proof (po_h pf (fp_ok mt r Hr)) as Ph.
  destruct mt.
  - replace (N.of_nat (r_h r / r_d r / 2 + 2)) with (upd_N pf + 2)%N by (rewrite Ru; lia). apply n_mt_sign; [|rewrite Ru; lia].
    intros b i Hb Hi. assert (Hix : i = sk_index r sk).
    { destruct Hk as (L & _ & Bk). unfold sk_index. rewrite (fp_ib r) in Hb.
      assert (Lsz : idx_size r <= fast_size r) by (rewrite (fast_size_eq true r Hr); clear; lia).
      assert (Hi8 : idx_size r <= 8) by (rewrite <- (fp_ib r (E := E)); apply (po_ib_le pf (fp_ok true r Hr))).
      rewrite rd_ok in Hb by (cbn [Nat.add]; rewrite skipn_length; unfold XMSS_OID_LEN; clear - L Lsz; lia).
      assert (Eb : b = firstn (idx_size r) (skipn 4 sk)) by (change (Ok (firstn (idx_size r) (skipn 4 sk)) = Ok b) in Hb; congruence).
      rewrite bytes_to_ull_spec in Hi; [congruence| |].
      - rewrite Eb, firstn_length. clear - Hi8; lia.
      - rewrite Eb. apply bytes_ok_firstn, bytes_ok_skipn. exact Bk. }
    subst i. destruct Hfew as [Z|[Z|Z]]; [discriminate|apply few_by_depth; [exact Ph|rewrite row_dd, Ru; clear - Z; lia]|].
    apply few_by_index. intros Hz. apply Z. unfold many_trees_end. rewrite <- Hz. f_equal. f_equal. rewrite Ru, (fp_th r). unfold sp_th. cbn [sp_h sp_d row_sp]. clear. lia.
  - replace (N.of_nat (r_h r / r_d r / 2 + 1)) with (upd_N pf + 1)%N by (rewrite Ru; lia). apply n_fast_sign.
Qed.
End Row.

(** ** The call at which three trees end: 20/4, 40/8, 60/12 *)
Section Wrap3.
Context {E : Env}.
Hypothesis HE : env_ok E.
Variable r : row.
Hypothesis Hr : In r (rows true).
Notation p := (row_params r (sk_fast r)).
Notation P := (row_sp r).
Notation n := (r_n r).
Notation ib := (idx_size r).
Hypothesis Hmany : r_h r / r_d r / 2 + 2 <= r_d r.
Let Hp := fp_ok true r Hr.
Let HH := fp_hash HE true r Hr.
Let Hk := fp_kH true r Hr.
Lemma many_five : r_h r / r_d r = 5.
Proof.
  assert (Hx : forallb (fun r => (r_d r <? r_h r / r_d r / 2 + 2) || (r_h r / r_d r =? 5)) (rows true) = true) by (vm_compute; reflexivity).
  rewrite forallb_forall in Hx. specialize (Hx r Hr). apply orb_true_iff in Hx as [A|A]; [apply Nat.ltb_lt in A; lia|now apply Nat.eqb_eq].
Qed.
Lemma many_d : 4 <= r_d r.
Proof. pose proof many_five as A. rewrite A in Hmany. cbn in Hmany. exact Hmany. Qed.
Lemma core_lb sks prfk rt seed ss ws sm smlen m idx : length sks = n -> length prfk = n -> length rt = n -> length seed = n ->
  In (idx + 1)%N [2 ^ 18; 2 ^ 19]%N -> mtinv p (row_hash r) sks seed idx ss ws -> sig_size r + length m <= length sm ->
  (7 <= leaves (fast_xmssmt_core_sign_c p (sk_layout (toByte idx ib) sks prfk rt seed (concat (map (store_state p) ss) ++ ws)) sm smlen m))%N.
Proof.
  intros L1 L2 L3 L4 Hi Hinv Hsm.
  pose proof many_five as F5. pose proof many_d as D4.
  assert (Th : tree_height p = 5) by (rewrite (fp_th r); exact F5).
  assert (EU : (tree_height p - bds_k p) / 2 = 2) by (change (bds_k p) with 0; rewrite Th; reflexivity).
  assert (Etc : thcount p = 5) by (unfold thcount; change (bds_k p) with 0; rewrite Th; reflexivity).
  assert (Edx : idx = (2 ^ 18 - 1)%N \/ idx = (2 ^ 19 - 1)%N) by (destruct Hi as [A|[A|[]]]; [left|right]; clear - A; lia).
  assert (Lim : (idx + 1 < 2 ^ 20)%N) by (destruct Edx as [-> | ->]; reflexivity).
  assert (Hh20 : 20 <= r_h r).
  { pose proof (po_h p Hp) as X. rewrite (fp_h r), Th, row_dd in X. clear - X D4. lia. }
  assert (Lh : (2 ^ 20 <= 2 ^ N.of_nat (r_h r))%N) by (apply N.pow_le_mono_r; [discriminate|clear - Hh20; lia]).
  assert (Lidx : (idx + 1 < 2 ^ N.of_nat (full_height p))%N) by (rewrite (fp_h r); clear - Lim Lh; lia).
  pose proof (mr_H3 r Hr) as H3. pose proof (mr_HU r Hr) as HU.
  rewrite <- (row_n r (sk_fast r)) in L1, L2, L3, L4.
  destruct (fast_mt_sign_spec p (row_hash r) Hp HH Hk H3 HU sks seed L1 L4 prfk rt L2 L3 idx ss ws sm m smlen [] Lidx) as (ss' & ws' & _ & _ & Heq).
  { right. rewrite EU, Th. exact Lim. } { exact Hinv. } { rewrite (fp_sig r). exact Hsm. }
  rewrite !app_nil_r, (fp_ib r) in Heq. rewrite <- er_mt_sign in Heq.
  revert Heq. set (y := mkSign _ _ _ _). clearbody y. intros Ho.
  assert (Hok : states_ok p ss) by exact (mtinv_ok p (row_hash r) Hp HH Hk H3 HU sks seed L1 L4 idx ss ws Hinv).
  assert (Des : xmssmt_deserialize_state p (sk_layout (toByte idx ib) sks prfk rt seed (concat (map (store_state p) ss) ++ ws)) = Ok (ss, ws)).
  { unfold sk_layout. rewrite !app_assoc. rewrite <- (app_assoc _ (concat _) ws). rewrite <- (app_nil_r ws) at 1.
    apply (deserialize_spec p Hk (fp_H30 true r Hr) (fp_d true r Hr)); [|exact Hok|apply Hinv].
    rewrite !app_length, toByte_length, (fp_ib r), L1, L2, L3, L4. clear. lia. }
  assert (Rix : rd (sk_layout (toByte idx ib) sks prfk rt seed (concat (map (store_state p) ss) ++ ws)) 0 ib = Ok (toByte idx ib)).
  { unfold sk_layout. eapply (rd_at _ [] (toByte idx ib)); [reflexivity|reflexivity|now rewrite toByte_length]. }
  assert (Uix : bytes_to_ull (toByte idx ib) = Ok idx).
  { rewrite <- (fp_ib r (E := E)). apply ull_field; first [apply (po_ib_le p Hp)|apply (idx_fits p Hp); clear - Lidx; lia]. }
  unfold fast_xmssmt_core_sign_c in Ho |- *. cbv zeta in Ho |- *. rewrite (fp_ib r) in Ho |- *.
  rewrite Des, cbind_ok, Rix, cbind_ok, Uix, cbind_ok in Ho |- *. rewrite (shl_ull (full_height p)) in Ho |- * by apply (po_h64 p Hp). rewrite cbind_ok in Ho |- *.
  destruct (N.leb_spec (2 ^ N.of_nat (full_height p) - 1) idx) as [Z|_]; [clear - Z Lidx; lia|].
  pose proof (body_lb p (row_hash r) Hp HH Hk H3 HU sks prfk rt seed L1 L2 L3 L4 idx (toByte idx ib) ss ws (concat (map (store_state p) ss) ++ ws) sm m y) as Hb.
  rewrite EU, Th, Etc in Hb. cbn [Nat.add] in Hb.
  eapply N.le_trans; [|apply Hb]; clear Hb.
  - destruct Edx as [-> | ->]; vm_compute; discriminate.
  - rewrite toByte_length, (fp_ib r). reflexivity.
  - pose proof (po_h p Hp) as X. rewrite Th in X. rewrite Nat.mul_comm, <- X. exact Lidx.
  - destruct Edx as [-> | ->]; vm_compute; tauto.
  - destruct Edx as [-> | ->]; vm_compute; intros [_ Z]; discriminate Z.
  - rewrite row_dd. clear - D4. lia.
  - exact Hinv.
  - exact Ho.
Qed.
Lemma effort_refuted rnd pk0 sk0 cs pk sk : (forall i, (rnd i < 256)%N) ->
  length pk0 = 4 + pk_size r -> length sk0 = 4 + fast_size r -> bytes_ok sk0 ->
  keypair true fast_core pk0 sk0 (r_oid r) rnd = Ok (0%Z, pk, sk) -> Forall (call_ok r) cs -> In (N.of_nat (length cs) + 1)%N [2 ^ 18; 2 ^ 19]%N ->
  sign_effort true r = 4%N /\
  exists sk' os, sign_run true fast_core sk cs = Ok (sk', os) /\
    forall x, call_ok r x -> (7 <= leaves (fast_sign_cost true sk' (c_sm x) (c_smlen x) (c_m x)))%N.
Proof.
  intros Hb Hpk Hsk Bsk Hkp Hok Hi. split; [unfold sign_effort; rewrite many_five; reflexivity|].
  destruct (fkey_mat HE true r Hr (goodm r) (mkey HE r Hr) pk0 sk0 rnd Hb Hpk Hsk Bsk) as (a & b & c & d & ext & Hf & Hct & Hmat & HG & Hkp').
  assert (Esk : sk = secret_key r 0 a b c d ++ ext) by congruence. subst sk.
  pose proof Hf as [(F1 & F2 & F3 & F4) _].
  assert (Lim : (N.of_nat (length cs) < fast_limit r)%N).
  { unfold fast_limit. rewrite many_five. pose proof many_d as D4. replace (Nat.min (r_d r) (5 / 2 + 2)) with 4 by (change (5 / 2 + 2) with 4; clear - D4; lia).
    change (2 ^ N.of_nat (5 * 4))%N with (2 ^ 20)%N. destruct Hi as [A|[A|[]]]; change (2 ^ 18)%N with 262144%N in A; change (2 ^ 19)%N with 524288%N in A; change (2 ^ 20)%N with 1048576%N; clear - A; lia. }
  destruct (frun_live true r Hr a b c d (goodm r a d) (fast_limit r) (mstep HE r Hr a b c d F1 F2 F3 F4) cs 0%N ext HG) as (os & ext' & HG' & S1 & S2 & S3); [now rewrite N.add_0_l|exact Hok|].
  rewrite N.add_0_l in *. destruct HG' as (ss & ws & Hinv & Hbh & ->).
  eexists _, os. split; [exact S1|]. intros x Hx. rewrite <- layout_ext.
  set (key := sk_layout _ _ _ _ _ _).
  unfold fast_sign_cost, sign_wrapper_c. rewrite (row_oid_bytes true r key Hr), cbind_ok.
  pose proof (parse_accept_fast true r uninit_params Hr) as Hpa. unfold ProofParams.parse_oid in Hpa. cbn [fast_core c_sk_bytes]. rewrite Hpa, cbind_ok.
  apply at_once. unfold XMSS_OID_LEN. rewrite skipn_app_len by (now rewrite toByte_length).
  unfold key. now apply core_lb.
Qed.
End Wrap3.

(** ** Parameter structures filled in by the caller *)
Section Custom.
Context {E : Env}.
Lemma custom_effort p P k sk sm smlen m : fast_params p P k ->
  (leaves (fast_xmss_core_sign_c p sk sm smlen m) <= N.of_nat ((sp_th P - k) / 2 + 1))%N /\
  (sp_d P <= (sp_th P - k) / 2 + 1 -> (leaves (fast_xmssmt_core_sign_c p sk sm smlen m) <= N.of_nat ((sp_th P - k) / 2 + 2))%N).
Proof.
  intros Hfp. destruct (fast_params_facts p P k Hfp) as (Hp & En & Et & Ed & Ek & Hk & Ei & Ew & Esk & _).
  assert (Eu : upd_N p = N.of_nat ((sp_th P - k) / 2)) by (unfold upd_N; rewrite (fU p), Et, Ek; reflexivity).
  pose proof (po_th p Hp) as T30. rewrite Et in T30.
  assert (U128 : (sp_th P - k) / 2 < 128) by (apply Nat.div_lt_upper_bound; lia).
  split.
  - pose proof (lv_le _ _ _ (n_fast_sign p sk sm smlen m)) as X. rewrite Eu in X. lia.
  - intros Hd. assert (X : runs (fast_xmssmt_core_sign_c p sk sm smlen m) (upd_N p + 2) (fun _ _ => True)).
    { apply n_mt_sign; [|rewrite Eu; lia]. intros b i _ _. apply few_by_depth; [exact (po_h p Hp)|rewrite Eu, Ed; lia]. }
    apply lv_le in X. rewrite Eu in X. lia.
Qed.
Lemma custom_keypair p P k pk sk rnd : fast_params p P k ->
  (forall x, ref_xmssmt_core_keypair p pk sk rnd = Ok x -> leaves (ref_xmssmt_core_keypair_c p pk sk rnd) = (2 ^ N.of_nat (sp_th P))%N) /\
  (forall x, fast_xmssmt_core_keypair p pk sk rnd = Ok x -> leaves (fast_xmssmt_core_keypair_c p pk sk rnd) = (N.of_nat (sp_d P) * 2 ^ N.of_nat (sp_th P))%N).
Proof.
  intros Hfp. destruct (fast_params_facts p P k Hfp) as (Hp & En & Et & Ed & Ek & Hk & Ei & Ew & Esk & _). split; intros x Hx.
  - destruct (n_ref_keypair p pk sk rnd) as [_ X]. rewrite er_ref_keypair, Et in X. exact (X x Hx).
  - pose proof (po_d p Hp) as D. destruct (n_mt_keypair p pk sk rnd ltac:(lia)) as [_ X]. rewrite er_mt_keypair, Et, Ed in X. exact (X x Hx).
Qed.
End Custom.
