(** Fast core, several layers: signing and key generation agree with the specification. *)
From Coq Require Import ZArith.
From Verif Require Import Base ModelUtils ModelParams ModelHash ModelWots ModelCommons ModelCore ModelCoreFast SpecRfc Lib ProofUtils ProofHash ProofWots ProofCommons ProofTree ProofCore ProofSched ProofBds1 ProofBds2 ProofBds3 ProofBds4 ProofFast1 ProofFast2 ProofFast5 ProofApi ProofMt1 ProofMt2 ProofMt3 ProofMt4 ProofMt5.

Section Mt.
Context {E : Env}.
Variable p : xmss_params.
Variable Hf : bytes -> bytes.
Hypothesis Hp : params_ok p.
Hypothesis HH : hash_total p Hf.
Notation P := (sp_of p Hf).
Notation n := (p_n p).
Notation H := (tree_height p).
Notation k := (bds_k p).
Notation thc := (thcount p).
Notation wsig := (wots_sig_bytes p).
Notation d := (p_d p).
Hypothesis Hk : k < H.
Hypothesis H3 : 3 <= H.
Notation U := ((H - k) / 2).
Hypothesis HU : Nat.min thc (H - 2) <= 2 * U.
Variables (sks seed : bytes).
Hypothesis Hsks : length sks = n.
Hypothesis Hseed : length seed = n.
Notation dig := (dig H).
Notation hi := (hi H).
Notation full := (full H).
Notation cnt := (cnt H).
Notation A := (A p).
Notation layer := (layer p Hf sks seed).
Notation ex_next := (ex_next p).
Notation allgood := (allgood H).

Let H2 : H <> 2.
Proof. clear - H3; lia. Qed.
Let H30 : H <= 30.
Proof. pose proof (po_th p Hp). lia. Qed.
Let Hh : full_height p = H * d.
Proof. rewrite (po_h p Hp). apply Nat.mul_comm. Qed.
Let U128 : U < 128.
Proof. pose proof (po_th p Hp) as X. apply Nat.div_lt_upper_bound; clear - X; lia. Qed.



Notation slot := (ck wsig).
Notation up_sig := (up_sig p Hf sks seed).


Notation mtinv := (mtinv p Hf sks seed).
Notation ib := (index_bytes p).
Notation dft := (mkBds [] 0 [] [] [] [] [] 0%N).

Lemma layer_cur idx i ss : layer 0 idx i ss -> exists f u base s, nth_error ss i = Some s /\ cur p Hf sks seed idx i f u base s.
Proof. intros (s & f & u & base & L1 & C & _). exists f, u, base, s. auto. Qed.
Notation cur_shape := (cur_shape p Hf Hp HH Hk H3 HU sks seed Hsks Hseed).
Lemma mtinv_ok idx ss ws : mtinv idx ss ws -> states_ok p ss.
Proof.
  intros (I1 & _ & I3 & _). apply (weak_all p ss I1). intros i Hi. exact (layer_weak p Hf Hp HH Hk H3 HU sks seed Hsks Hseed 0 idx i ss (I3 i Hi)).
Qed.

Lemma tree_hi idx i : tree_of P idx i = hi idx (S i).
Proof. unfold tree_of, ProofMt1.hi. rewrite (sp_th_of p Hf Hp). now rewrite Nat.add_1_r. Qed.
Lemma leaf_dig' idx i : leaf_of P idx i = N.of_nat (dig idx i).
Proof. unfold leaf_of. rewrite (sp_th_of p Hf Hp). rewrite (dig_N H). reflexivity. Qed.

Lemma layer_auth idx i ss : layer 0 idx i ss -> st_auth (nth i ss dft) = concat (auth_path P sks seed (N.of_nat i) (tree_of P idx i) (leaf_of P idx i)).
Proof.
  intros L. destruct (layer_cur idx i ss L) as (f & u & base & s & A1 & A2). rewrite (nth_error_nth ss i dft A1).
  destruct (cur_shape idx i f u base s A2) as [Sh _]. destruct A2 as (_ & _ & A2 & _).
  pose proof (trav_auth p Hf Hp Hk H2 HU sks seed _ _ Hsks Hseed _ _ _ _ A2) as R. rewrite rd_all in R by (reflexivity || symmetry; exact (sh_auth p s Sh)).
  rewrite tree_hi, leaf_dig'. congruence.
Qed.
Lemma auth_len idx i ss : layer 0 idx i ss -> length (st_auth (nth i ss dft)) = H * n.
Proof.
  intros L. destruct (layer_cur idx i ss L) as (f & u & base & s & A1 & A2). rewrite (nth_error_nth ss i dft A1).
  exact (sh_auth p s (proj1 (cur_shape idx i f u base s A2))).
Qed.

Lemma idx_fits idx : (idx < 2 ^ N.of_nat (full_height p))%N -> (idx < 256 ^ N.of_nat ib)%N.
Proof. intros L. pose proof (po_ib_le p Hp) as [_ X]. pose proof (pow2_lt_256 _ _ X) as Y. eapply N.lt_le_trans; [exact L|exact Y]. Qed.


(** *** key generation *)
Lemma hi_0i i : hi 0 i = 0%N.
Proof. unfold ProofMt1.hi. apply N.div_0_l. apply N.pow_nonzero. discriminate. Qed.
Lemma dig_0i i : dig 0 i = 0.
Proof. unfold ProofMt1.dig. rewrite hi_0i. rewrite N.mod_0_l; [reflexivity|]. apply N.pow_nonzero. discriminate. Qed.
Lemma init_layer i s a : shape p s -> in_range s -> st_stackoffset s = 0 -> st_next_leaf s = 0%N -> sub_ctx (N.of_nat i) 0 a ->
  exists s', treehash_init p H s sks seed a = Ok (root P sks seed (N.of_nat i) 0, s') /\ cur p Hf sks seed 0 i (fun _ => None) 0 [] s'.
Proof.
  intros Hsh Hr Ho Hn Ha.
  destruct (treehash_init_spec p Hf Hp HH Hk sks seed (N.of_nat i) 0 Hsks Hseed s a H2 Hsh) as (s1 & Heq & Sh1 & Bu1 & Id1 & O1 & N1 & K1 & _).
  { intros j t Ht. destruct Hr as (_ & _ & Hrg). rewrite Forall_forall in Hrg. apply (Hrg t). now apply nth_error_In in Ht. }
  { exact Ha. }
  exists s1. split; [exact Heq|]. unfold cur. rewrite dig_0i, hi_0i.
  split; [apply sinv_none|]. split; [split; [cbn; clear; lia|intros x []]|]. split; [|split; [rewrite N1, Hn; reflexivity|split; [reflexivity|left; reflexivity]]].
  apply (built_trav p Hf Hp HH Hk H2 HU sks seed _ _ Hsks Hseed); try assumption; [|now rewrite O1|exact I].
  intros j t Ht. destruct (Id1 j t Ht) as (I1 & I2 & I3 & I4). rewrite I2, I1.
  assert (Hj : j < thc) by (rewrite <- (sh_th p s1); [apply nth_error_Some; congruence|assumption]).
  unfold thcount in Hj. split; [clear - Hj H30; lia|]. split; [clear; lia|]. auto.
Qed.

Definition kinv (ss0 : list bds_state) (c : nat) (ss : list bds_state) (ws : bytes) : Prop :=
  length ss = nstates p /\ length ws = (d - 1) * wsig /\
  (forall i, i < c -> exists s, nth_error ss i = Some s /\ cur p Hf sks seed 0 i (fun _ => None) 0 [] s) /\
  (forall j, c <= j -> nth_error ss j = nth_error ss0 j) /\
  (forall i, i < c -> S i < d -> slot ws i = up_sig 0 i).
Definition reset (s : bds_state) : bds_state := set_next_leaf (set_stackoffset s 0) 0%N.
Definition clean (ss0 : list bds_state) : Prop := exists si, states_ok p si /\ ss0 = map reset si.
Lemma clean_at ss0 j s L T : clean ss0 -> nth_error ss0 j = Some s ->
  partial_tree p Hf sks seed L T 0 s /\ shape p s /\ in_range s /\ st_stackoffset s = 0 /\ st_next_leaf s = 0%N.
Proof.
  intros (si & (_ & S2 & S3) & ->) Hj. rewrite nth_error_map in Hj. destruct (nth_error si j) as [t|] eqn:Et; [|discriminate].
  injection Hj as <-. apply nth_error_In in Et. rewrite Forall_forall in S2, S3. pose proof (S2 t Et) as Sh. destruct (S3 t Et) as (_ & _ & R).
  pose proof (partial_0 p Hf Hk sks seed L T Hsks Hseed t Sh) as P0. fold (reset t) in P0.
  split; [exact P0|]. split; [exact (pt_shape _ _ _ _ _ _ _ _ P0)|]. split; [split; [reflexivity|split; [reflexivity|exact R]]|]. split; reflexivity.
Qed.
Lemma clean_length ss0 : clean ss0 -> length ss0 = nstates p.
Proof. intros (si & (S1 & _) & ->). now rewrite map_length. Qed.

Lemma kp_loop ss0 ws0 pk0 q : clean ss0 -> length ws0 = (d - 1) * wsig -> length pk0 = n ->
  exists pk1 ss ws a, length pk1 = n /\ kinv ss0 (d - 1) ss ws /\ ots_ctx a (N.of_nat (d - 1)) 0 0 /\
  forN (d - 1) 0 (fun i '(pk, ss, ws, a) =>
      let* s := rdc ss i in
      let* (root, s) := treehash_init p H s sks seed a in
      let* pk := wr pk 0 root in
      let* ss := wrc ss i s in
      let a := set_layer_addr a (N.of_nat (i + 1)) in
      let* (sig, a) := wots_sign p root sks seed a in
      let* ws := wr ws (i * wots_sig_bytes p) sig in
      Ok (pk, ss, ws, a)) (pk0 ++ q, ss0, ws0, set_layer_addr addr_zero 0) = Ok (pk1 ++ q, ss, ws, a).
Proof.
  intros Hc Hw Hpk. pose proof (clean_length ss0 Hc) as Hc0.
  match goal with |- context [forN ?kk 0 ?body ?st0] =>
    destruct (forN_inv (fun c '(pk, ss, ws, a) => exists pk1, pk = pk1 ++ q /\ length pk1 = n /\ kinv ss0 c ss ws /\ ots_ctx a (N.of_nat c) 0 0) kk 0 body st0) as ([[[pk ss] ws] a] & F1 & pk1 & F2 & F3 & F4 & F5) end.
  - intros c [[[pk ss] ws] a] Hcd (pk1 & -> & J0 & (K1 & K2 & K3 & K4 & K5) & Ha).
    assert (Lc : c < length ss) by (rewrite K1; unfold nstates; clear - Hcd; lia).
    destruct (nth_error ss c) as [s|] eqn:Es; [|apply nth_error_None in Es; clear - Es Lc; lia].
    rewrite (rdc_some _ _ s Es), bind_ok.
    destruct (clean_at ss0 c s 0 0 Hc) as (_ & C1 & C2 & C3 & C4); [now rewrite <- K4 by apply Nat.le_refl|].
    destruct (init_layer c s a C1 C2 C3 C4) as (s' & T1 & T2). { destruct Ha as [(A0 & A1 & A2 & _) _]. repeat split; assumption. }
    rewrite T1, bind_ok. set (rt := root P sks seed (N.of_nat c) 0) in *.
    assert (Lr : length rt = n) by apply (node_length p Hf Hp HH).
    rewrite (wr_at _ [] pk1 q) by (reflexivity || (now rewrite Lr, J0)). rewrite bind_ok. cbn [app].
    rewrite wrc_ok, bind_ok by exact Lc. cbv zeta.
    destruct (wots_sign_spec p Hf Hp HH seed (N.of_nat (S c)) 0 0 Hseed sks rt (set_layer_addr a (N.of_nat (c + 1)))) as (a' & W1 & W2).
    { exact Hsks. } { apply (node_bytes p Hf HH). } { exact Lr. }
    { destruct Ha as [(A0 & A1 & A2 & A3) A4]. split; [|exact A4]. split; [cbn; now rewrite Nat.add_1_r|]. split; [exact A1|split; [exact A2|exact A3]]. }
    rewrite W1, bind_ok.
    assert (Eu : concat (wots_sig P seed (N.of_nat (S c)) 0 0 sks rt) = up_sig 0 c) by (unfold ProofMt4.up_sig; rewrite !hi_0i, dig_0i; reflexivity).
    rewrite Eu. assert (Hc1 : c < d - 1) by (clear - Hcd; lia).
    rewrite (wr_ck wsig ws c (d - 1)) by (assumption || apply (up_sig_length p Hf Hp HH)). rewrite bind_ok.
    eexists. split; [reflexivity|]. exists rt. split; [reflexivity|]. split; [exact Lr|]. split; [|exact W2].
    split; [now rewrite upd_length|]. split; [rewrite (setck_length wsig _ _ (d - 1)) by (assumption || apply (up_sig_length p Hf Hp HH)); reflexivity|].
    split; [|split].
    + intros i Hi. destruct (Nat.eq_dec i c) as [->|Hne]; [exists s'; split; [now apply nth_error_upd_same|exact T2]|].
      rewrite nth_error_upd_other by auto. apply K3. clear - Hi Hne; lia.
    + intros j Hj. rewrite nth_error_upd_other by (clear - Hj; lia). apply K4. clear - Hj; lia.
    + intros i Hi HSi. destruct (Nat.eq_dec i c) as [->|Hne]; [apply (ck_setck_same wsig _ _ (d - 1)); assumption || apply (up_sig_length p Hf Hp HH)|].
      rewrite (ck_setck_other wsig _ _ _ (d - 1)); [|exact K2|exact Hc1|clear - HSi; lia|apply (up_sig_length p Hf Hp HH)|auto]. apply K5; [clear - Hi Hne; lia|exact HSi].
  - exists pk0. split; [reflexivity|]. split; [exact Hpk|]. split; [|repeat split].
    split; [exact Hc0|]. split; [exact Hw|]. split; [intros i Hi; clear - Hi; lia|]. split; [reflexivity|intros i Hi; clear - Hi; lia].
  - subst pk. exists pk1, ss, ws, a. repeat (split; [assumption|]). exact F1.
Qed.


Lemma kinv_mtinv ss0 ss ws : clean ss0 -> kinv ss0 d ss ws -> mtinv 0 ss ws.
Proof.
  intros Hc (K1 & K2 & K3 & K4 & K5). split; [exact K1|]. split; [exact K2|]. split; [|intros i Hi; apply K5; [clear - Hi; lia|exact Hi]].
  intros i Hi. destruct (K3 i Hi) as (s & E1 & C). exists s, (fun _ => None), 0, []. split; [exact E1|]. split; [exact C|].
  intros HSi. assert (Ld : d + i < length ss) by (rewrite K1; unfold nstates; clear - HSi; lia).
  destruct (nth_error ss (d + i)) as [nx|] eqn:En; [|apply nth_error_None in En; clear - En Ld; lia].
  exists nx. split; [reflexivity|]. rewrite K4 in En by (clear; lia).
  destruct (clean_at ss0 (d + i) nx (N.of_nat i) (hi 0 (S i) + 1) Hc En) as (C1 & C2 & C3 & _).
  split; [exact C2|]. split; [exact C3|]. intros _. exists 0. split; [apply Nat.le_0_l|]. split; [exact C1|].
  unfold link. destruct (Nat.eqb_spec i 0) as [->|_]; [rewrite dig_0i; reflexivity|right; rewrite dig_0i].
  rewrite (cnt_zero H H3) by (intros; apply dig_0i). rewrite (wk_0 H thc U HU), (tw_none thc) by reflexivity. rewrite !Nat.mul_0_r. clear. lia.
Qed.

Variables (prfk rt : bytes).
Hypothesis Hprf : length prfk = n.
Hypothesis Hrt : length rt = n.

Lemma sig_is_spec idx m ss ws : mtinv idx ss ws ->
  sig_out p Hf sks prfk rt seed idx m 0 (N.shiftr idx (N.of_nat H)) (idx mod 2 ^ N.of_nat H)%N (st_auth (nth 0 ss dft)) (concat (map (upper p ss ws) (seq 1 (d - 1)))) =
  mt_sign P sks prfk rt seed idx m.
Proof.
  intros (I1 & I2 & I3 & I4). assert (Hd : 1 <= d) by apply (po_d p Hp).
  unfold sig_out, mt_sign. cbv zeta. replace (sp_ib P) with ib by exact (po_ib p Hp). do 2 f_equal.
  set (M := H_msg P (PRF P prfk (toByte idx 32)) rt idx m). change (sp_d P) with d.
  replace (seq 0 d) with (0 :: seq 1 (d - 1)) by (clear - Hd; destruct d as [|x]; [lia|cbn [seq Nat.sub]; now rewrite Nat.sub_0_r]). cbn [map concat]. unfold layer_sig at 1. cbv zeta. rewrite <- app_assoc.
  assert (E0 : N.shiftr idx (N.of_nat H) = tree_of P idx 0) by (rewrite tree_hi, N.shiftr_div_pow2; unfold ProofMt1.hi; now rewrite Nat.mul_1_r).
  assert (E1 : (idx mod 2 ^ N.of_nat H)%N = leaf_of P idx 0) by (rewrite leaf_dig', (dig_N H), (hi_0 H); reflexivity).
  rewrite E0, E1. rewrite (layer_auth idx 0 ss (I3 0 Hd)). change (N.of_nat 0) with 0%N. f_equal. f_equal. f_equal.
  apply map_ext_in. intros i Hi. apply in_seq in Hi. unfold upper, layer_sig. cbv zeta. rewrite (layer_auth idx i ss) by (apply I3; clear - Hi; lia). f_equal.
  destruct i as [|i]; [clear - Hi; lia|]. replace (S i - 1) with i by (clear; lia). pose proof (I4 i ltac:(clear - Hi; lia)) as U4. unfold ck in U4. rewrite U4.
  unfold ProofMt4.up_sig, layer_msg. rewrite !tree_hi, leaf_dig'. reflexivity.
Qed.

(** signing, given what the update loop makes of the stored traversal data *)
Lemma fast_mt_sign_gen (Q : list bds_state -> bytes -> Prop) idx ss ws sm m smlen post : (idx + 1 < 2 ^ N.of_nat (full_height p))%N ->
  states_ok p ss -> length ws = (d - 1) * wsig -> sig_bytes p + length m <= length sm ->
  (forall ots a, a3 ots = 0%N -> sub_ctx 0 (hi idx 1 + 1) a -> exists ss2 v,
     (if (u64 ((1 + hi idx 1) * 2 ^ N.of_nat H + N.of_nat (dig idx 0)) <? 2 ^ N.of_nat (full_height p))%N
      then let* nx := rdc ss d in let* nx := bds_state_update p nx sks seed a in wrc ss d nx else Ok ss) = Ok ss2 /\
     forN d 0 (mt_layer_step p idx sks seed) (mkMt ss2 ws a ots (N.of_nat U) (-1)) = Ok v /\
     states_ok p (mv_ss v) /\ length (mv_ws v) = (d - 1) * wsig /\ Q (mv_ss v) (mv_ws v)) ->
  exists ss' ws', Q ss' ws' /\ states_ok p ss' /\ length ws' = (d - 1) * wsig /\
    fast_xmssmt_core_sign p (sk_layout (toByte idx ib) sks prfk rt seed (concat (map (store_state p) ss) ++ ws ++ post)) sm smlen m =
      Ok (mkSign 0 (sk_layout (toByte (idx + 1) ib) sks prfk rt seed (concat (map (store_state p) ss') ++ ws' ++ post))
         (sig_out p Hf sks prfk rt seed idx m 0 (N.shiftr idx (N.of_nat H)) (idx mod 2 ^ N.of_nat H)%N (st_auth (nth 0 ss dft)) (concat (map (upper p ss ws) (seq 1 (d - 1))))
          ++ m ++ skipn (sig_bytes p + length m) sm) (sig_bytes p + length m)).
Proof.
  intros Lidx Ok1 I2 Hsm Hloop. pose proof Ok1 as (I1 & Ish & _). assert (Hd : 1 <= d) by apply (po_d p Hp).
  assert (Lidx' : (idx < 2 ^ N.of_nat (full_height p))%N) by (clear - Lidx; lia).
  set (ext := concat (map (store_state p) ss) ++ ws ++ post).
  destruct (mt_output p Hf Hp HH sks prfk rt seed Hsks Hprf Hrt Hseed idx (toByte idx ib) ss ws ext sm m) as (ots & O1 & O2).
  { apply toByte_length. } { exact I1. }
  { intros i Hi. rewrite Forall_forall in Ish. apply (sh_auth p), Ish, nth_In. rewrite I1. unfold nstates. clear - Hi. lia. }
  { exact I2. } { exact Hsm. } { exact Lidx'. }
  cbv zeta in O2. rewrite (fU p) in O2.
  assert (E0 : N.shiftr idx (N.of_nat H) = hi idx 1) by (rewrite N.shiftr_div_pow2; unfold ProofMt1.hi; now rewrite Nat.mul_1_r).
  assert (E1 : (idx mod 2 ^ N.of_nat H)%N = N.of_nat (dig idx 0)) by (rewrite (dig_N H), (hi_0 H); reflexivity).
  destruct (Hloop ots (set_tree_addr addr_zero (hi idx 1 + 1))) as (ss2 & v & U1 & U2 & Ok2 & Lws2 & U3).
  { apply O1. } { apply sub_tree. reflexivity. }
  exists (mv_ss v), (mv_ws v). split; [exact U3|]. split; [exact Ok2|]. split; [exact Lws2|].
  set (pre' := toByte (idx + 1) ib ++ sks ++ prfk ++ rt ++ seed).
  assert (Ser : xmssmt_serialize_state p (sk_layout (toByte (idx + 1) ib) sks prfk rt seed ext) (mv_ss v) (mv_ws v) =
     Ok (sk_layout (toByte (idx + 1) ib) sks prfk rt seed (concat (map (store_state p) (mv_ss v)) ++ mv_ws v ++ post))).
  { replace (sk_layout (toByte (idx + 1) ib) sks prfk rt seed ext) with (pre' ++ (concat (map (store_state p) ss) ++ ws) ++ post) by (unfold sk_layout, pre', ext; rewrite <- !app_assoc; reflexivity).
    rewrite (serialize_spec p Hk H30 Hd); [unfold sk_layout, pre'; rewrite <- !app_assoc; reflexivity| | |exact Ok2|exact Lws2].
    - unfold pre'. rewrite !app_length, toByte_length. clear - Hsks Hprf Hrt Hseed. lia.
    - rewrite app_length, (store_states_length p Hk H30 Hd) by apply Ok1. rewrite I1, I2. reflexivity. }
  rewrite E0, E1 in O2. specialize (O2 ss2 v _ U1 U2 Ser). rewrite <- E0, <- E1 in O2.
  unfold fast_xmssmt_core_sign. cbv zeta.
  set (pre := toByte idx ib ++ sks ++ prfk ++ rt ++ seed).
  assert (Esk : sk_layout (toByte idx ib) sks prfk rt seed ext = pre ++ concat (map (store_state p) ss) ++ ws ++ post) by (unfold sk_layout, pre, ext; rewrite <- !app_assoc; reflexivity).
  rewrite Esk at 1. rewrite (deserialize_spec p Hk H30 Hd pre ss ws post); [|unfold pre; rewrite !app_length, toByte_length; clear - Hsks Hprf Hrt Hseed; lia|exact Ok1|exact I2].
  rewrite bind_ok. unfold sk_layout at 1.
  rewrite (rd_at _ [] (toByte idx ib) (sks ++ prfk ++ rt ++ seed ++ ext)) by (reflexivity || now rewrite toByte_length).
  rewrite bind_ok, ull_field by (apply (po_ib_le p Hp) || now apply idx_fits). rewrite bind_ok.
  rewrite (shl_ull (full_height p)) by apply (po_h64 p Hp). rewrite bind_ok.
  destruct (N.leb_spec (2 ^ N.of_nat (full_height p) - 1) idx) as [Hbad|_]; [clear - Hbad Lidx; lia|]. exact O2.
Qed.

Lemma fast_mt_sign_spec idx ss ws sm m smlen post : (idx + 1 < 2 ^ N.of_nat (full_height p))%N -> d <= U + 2 \/ (idx + 1 < 2 ^ N.of_nat (H * (U + 2)))%N ->
  mtinv idx ss ws -> sig_bytes p + length m <= length sm ->
  exists ss' ws', mtinv (idx + 1) ss' ws' /\ (H <= 5 -> U + 2 < d -> behind p idx ss -> behind p (idx + 1) ss') /\
    fast_xmssmt_core_sign p (sk_layout (toByte idx ib) sks prfk rt seed (concat (map (store_state p) ss) ++ ws ++ post)) sm smlen m =
      Ok (mkSign 0 (sk_layout (toByte (idx + 1) ib) sks prfk rt seed (concat (map (store_state p) ss') ++ ws' ++ post))
         (mt_sign P sks prfk rt seed idx m ++ m ++ skipn (sig_bytes p + length m) sm) (sig_bytes p + length m)).
Proof.
  intros Lidx Hwin Hinv Hsm.
  destruct (fast_mt_sign_gen (fun ss' ws' => mtinv (idx + 1) ss' ws' /\ (H <= 5 -> U + 2 < d -> behind p idx ss -> behind p (idx + 1) ss')) idx ss ws sm m smlen post Lidx) as (ss' & ws' & (Q1 & Q2) & _ & _ & Heq).
  { exact (mtinv_ok _ _ _ Hinv). } { apply Hinv. } { exact Hsm. }
  { intros ots a Ho Ha. destruct (mt_update p Hf Hp HH Hk H3 HU sks seed Hsks Hseed idx ss ws ots a) as (ss2 & v & U1 & U2 & U3 & U4); try assumption.
    { rewrite <- Hh. exact Lidx. }
    exists ss2, v. split; [exact U1|]. split; [exact U2|]. split; [exact (mtinv_ok _ _ _ U3)|]. split; [apply U3|]. split; [exact U3|exact U4]. }
  exists ss', ws'. split; [exact Q1|]. split; [exact Q2|]. rewrite (sig_is_spec idx m ss ws Hinv) in Heq. exact Heq.
Qed.

End Mt.

Section Key.
Context {E : Env}.
Variable p : xmss_params.
Variable Hf : bytes -> bytes.
Hypothesis Hp : params_ok p.
Hypothesis HH : hash_total p Hf.
Notation P := (sp_of p Hf).
Notation n := (p_n p).
Notation H := (tree_height p).
Notation k := (bds_k p).
Notation thc := (thcount p).
Notation wsig := (wots_sig_bytes p).
Notation d := (p_d p).
Notation ib := (index_bytes p).
Hypothesis Hk : k < H.
Hypothesis H3 : 3 <= H.
Notation U := ((H - k) / 2).
Hypothesis HU : Nat.min thc (H - 2) <= 2 * U.

Let H30 : H <= 30.
Proof. pose proof (po_th p Hp). lia. Qed.

Lemma fast_mt_keypair_spec pk sk r : 2 * n <= length pk -> bytes_ok sk -> ib + 4 * n + ser_bytes p <= length sk ->
  let sks := rand_take r 0 n in let prfk := rand_take r n n in let pubs := rand_take r (2 * n) n in
  let rt := mt_root P sks pubs in
  exists ss ws, mtinv p Hf sks pubs 0 ss ws /\ behind p 0 ss /\
  fast_xmssmt_core_keypair p pk sk r =
    Ok (0%Z, rt ++ pubs ++ skipn (2 * n) pk,
        sk_layout (toByte 0 ib) sks prfk rt pubs (concat (map (store_state p) ss) ++ ws ++ skipn (ib + 4 * n + ser_bytes p) sk)).
Proof.
  intros Hpk Hbok Hskl sks0 prfk0 pubs0 rt0. assert (Hd : 1 <= d) by apply (po_d p Hp).
  unfold fast_xmssmt_core_keypair. cbv zeta.
  destruct (cut sk ib) as (x0 & y0 & Ek & Hx0 & _); [clear - Hskl; lia|].
  destruct (cut y0 (2 * n)) as (x1 & y1 & Ek1 & Hx1 & _); [rewrite Ek, app_length in Hskl; clear - Hskl Hx0; lia|]. subst y0.
  destruct (cut y1 n) as (x2 & y2 & Ek2 & Hx2 & _); [rewrite Ek, !app_length in Hskl; clear - Hskl Hx0 Hx1; lia|]. subst y1.
  destruct (cut y2 n) as (x3 & y3 & Ek3 & Hx3 & _); [rewrite Ek, !app_length in Hskl; clear - Hskl Hx0 Hx1 Hx2; lia|]. subst y2.
  destruct (cut y3 (ser_bytes p)) as (x4 & post & Ek4 & Hx4 & _); [rewrite Ek, !app_length in Hskl; clear - Hskl Hx0 Hx1 Hx2 Hx3; lia|]. subst y3.
  assert (Hb4 : bytes_ok x4) by (rewrite Ek in Hbok; rewrite !bytes_ok_app in Hbok; tauto).
  destruct (ser_of_bytes p Hk H30 Hd x4 Hx4 Hb4) as (si & wi & E4 & Hsi & Hwi).
  assert (Hpost : skipn (ib + 4 * n + ser_bytes p) sk = post).
  { rewrite Ek. rewrite !app_assoc. apply skipn_app_len. rewrite !app_length, Hx0, Hx1, Hx2, Hx3, Hx4. clear. lia. }
  rewrite Hpost. clear Hpost Hbok Hskl. subst sk.
  assert (Edes : xmssmt_deserialize_state p (x0 ++ x1 ++ x2 ++ x3 ++ x4 ++ post) = Ok (si, wi)).
  { replace (x0 ++ x1 ++ x2 ++ x3 ++ x4 ++ post) with ((x0 ++ x1 ++ x2 ++ x3) ++ concat (map (store_state p) si) ++ wi ++ post) by (rewrite E4, <- !app_assoc; reflexivity).
    apply (deserialize_spec p Hk H30 Hd (x0 ++ x1 ++ x2 ++ x3) si wi post); [rewrite !app_length, Hx0, Hx1, Hx2, Hx3; clear; lia|exact Hsi|exact Hwi]. }
  rewrite Edes. clear Edes.
  rewrite bind_ok. change (map (fun s => set_next_leaf (set_stackoffset s 0) 0%N) si) with (map reset si).
  rewrite (wr_at _ [] x0 (x1 ++ x2 ++ x3 ++ x4 ++ post)) by (reflexivity || (rewrite repeat_length; now rewrite Hx0)). rewrite bind_ok. cbn [app].
  assert (Hz4 : repeat 0%N ib = toByte 0 ib) by (symmetry; apply toByte_0). rewrite Hz4. set (z := toByte 0 ib). assert (Hz : length z = ib) by apply toByte_length.
  assert (Hrt2 : rand_take r 0 (2 * n) = sks0 ++ prfk0).
  { unfold sks0, prfk0. replace (2 * n) with (n + n) by (clear; lia). rewrite rand_take_app. reflexivity. }
  assert (Ls : length sks0 = n) by apply rand_take_length. assert (Lp : length prfk0 = n) by apply rand_take_length. assert (Lb : length pubs0 = n) by apply rand_take_length.
  rewrite Hrt2. rewrite (wr_at _ z x1 (x2 ++ x3 ++ x4 ++ post)) by (reflexivity || (rewrite ?app_length; clear - Hz Hx1 Ls Lp; lia)). rewrite bind_ok.
  change (rand_take r (2 * n) n) with pubs0.
  rewrite (wr_at _ (z ++ (sks0 ++ prfk0) ++ x2) x3 (x4 ++ post)) by ((rewrite <- !app_assoc; reflexivity) || (rewrite ?app_length; clear - Hz Ls Lp Lb Hx2 Hx3; lia)). rewrite bind_ok.
  rewrite (rd_at _ (z ++ (sks0 ++ prfk0) ++ x2) pubs0 (x4 ++ post)) by (reflexivity || (rewrite ?app_length; clear - Hz Ls Lp Lb Hx2; lia)). rewrite bind_ok.
  destruct (cut pk n) as (p0 & q0 & Ep & Hp0 & _); [clear - Hpk; lia|].
  destruct (cut q0 n) as (p1 & q1 & Ep1 & Hp1 & _); [rewrite Ep, app_length in Hpk; clear - Hpk Hp0; lia|]. subst q0.
  assert (Hq1 : skipn (2 * n) pk = q1) by (rewrite Ep, app_assoc; apply skipn_app_len; rewrite app_length; clear - Hp0 Hp1; lia). rewrite Hq1. subst pk.
  rewrite (wr_at _ p0 p1 q1) by (reflexivity || (now rewrite ?Lb)). rewrite bind_ok.
  rewrite (rd_at _ z sks0 (prfk0 ++ x2 ++ pubs0 ++ x4 ++ post)) by ((rewrite <- !app_assoc; reflexivity) || (clear - Hz Ls; lia)). rewrite bind_ok.
  assert (Hcl : clean p (map reset si)) by (exists si; auto).
  destruct (kp_loop p Hf Hp HH Hk H3 HU sks0 pubs0 Ls Lb (map reset si) wi p0 (pubs0 ++ q1) Hcl Hwi Hp0) as (pk1 & ss & ws & a & L1 & (K1 & K2 & K3 & K4 & K5) & L3 & L4).
  cbv zeta in L4. rewrite L4, bind_ok. clear L4.
  assert (Lc : d - 1 < length ss) by (rewrite K1; unfold nstates; clear - Hd; lia).
  destruct (nth_error ss (d - 1)) as [s|] eqn:Es; [|apply nth_error_None in Es; clear - Es Lc; lia].
  rewrite (rdc_some _ _ s Es), bind_ok.
  destruct (clean_at p Hf Hk sks0 pubs0 Ls Lb (map reset si) (d - 1) s 0 0 Hcl) as (_ & C1 & C2 & C3 & C4); [now rewrite <- K4 by apply Nat.le_refl|].
  destruct (init_layer p Hf Hp HH Hk H3 HU sks0 pubs0 Ls Lb (d - 1) s a C1 C2 C3 C4) as (s' & T1 & T2). { destruct L3 as [(A0 & A1 & A2 & _) _]. repeat split; assumption. }
  rewrite T1, bind_ok.
  assert (Hroot : root P sks0 pubs0 (N.of_nat (d - 1)) 0 = rt0) by reflexivity.
  rewrite Hroot. assert (Lr : length rt0 = n) by (rewrite <- Hroot; apply (node_length p Hf Hp HH)).
  rewrite (wr_at _ [] pk1 (pubs0 ++ q1)) by (reflexivity || (now rewrite Lr, L1)). rewrite bind_ok. cbn [app].
  rewrite wrc_ok, bind_ok by exact Lc.
  rewrite (wr_at _ (z ++ sks0 ++ prfk0) x2 (pubs0 ++ x4 ++ post)) by ((rewrite <- !app_assoc; reflexivity) || (rewrite ?app_length; clear - Hz Ls Lp Lr Hx2; lia)). rewrite bind_ok.
  set (ss' := upd ss (d - 1) s').
  assert (Hinv : mtinv p Hf sks0 pubs0 0 ss' ws).
  { apply (kinv_mtinv p Hf Hk H3 HU sks0 pubs0 Ls Lb (map reset si)); [exact Hcl|]. split; [unfold ss'; now rewrite upd_length|]. split; [exact K2|]. split; [|split].
    - intros i Hi. destruct (Nat.eq_dec i (d - 1)) as [->|Hne]; [exists s'; split; [now apply nth_error_upd_same|exact T2]|].
      unfold ss'. rewrite nth_error_upd_other by auto. apply K3. clear - Hi Hne; lia.
    - intros j Hj. unfold ss'. rewrite nth_error_upd_other by (clear - Hj Hd; lia). apply K4. clear - Hj; lia.
    - intros i Hi HSi. apply K5; [clear - HSi; lia|exact HSi]. }
  exists ss', ws. split; [exact Hinv|]. split.
  { intros nx Hnx. unfold ss' in Hnx. rewrite nth_error_upd_other in Hnx by (clear - Hd; lia). rewrite K4 in Hnx by (clear; lia).
    destruct (clean_at p Hf Hk sks0 pubs0 Ls Lb (map reset si) _ nx 0 0 Hcl Hnx) as (_ & _ & _ & _ & Hn0). rewrite Hn0. now rewrite dig_0i. }
  pose proof (mtinv_ok p Hf Hp HH Hk H3 HU sks0 pubs0 Ls Lb 0 ss' ws Hinv) as Hok.
  set (pre' := (z ++ sks0 ++ prfk0) ++ rt0 ++ pubs0).
  replace ((z ++ sks0 ++ prfk0) ++ rt0 ++ pubs0 ++ x4 ++ post) with (pre' ++ x4 ++ post) by (unfold pre'; rewrite <- !app_assoc; reflexivity).
  rewrite (serialize_spec p Hk H30 Hd pre' x4 post ss' ws);
    [|unfold pre'; rewrite !app_length, Hz, Ls, Lp, Lr, Lb; clear; lia|exact Hx4|exact Hok|exact K2].
  rewrite bind_ok. do 2 f_equal. unfold pre', sk_layout, z. rewrite <- !app_assoc. reflexivity.
Qed.
End Key.
