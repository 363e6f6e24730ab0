(** What the fast core's sign writes to the output buffer, and its behaviour on the last
    index and on exhausted keys. *)
From Verif Require Import Base ModelUtils ModelParams ModelHash ModelWots ModelCommons ModelCore ModelCoreFast.
From Verif Require Import SpecRfc Lib ProofUtils ProofHash ProofWots ProofCommons ProofTree ProofCore ProofBds1 ProofFast1 ProofFast2.

Lemma app_repeat_inv (x : N) (a b : bytes) k : a ++ b = repeat x k -> a = repeat x (length a) /\ b = repeat x (length b).
Proof.
  revert k. induction a as [|y a IH]; intros k He; cbn [app length repeat] in *.
  - split; [reflexivity|]. rewrite He, repeat_length. reflexivity.
  - destruct k as [|k]; [discriminate|]. injection He as -> He. destruct (IH k He) as [H1 H2]. split; [now rewrite <- H1|exact H2].
Qed.

Lemma slice_le c k w : c < k -> c * w + w <= k * w.
Proof. intros Hc. rewrite <- Nat.mul_succ_l. apply Nat.mul_le_mono_r. lia. Qed.
Lemma forN_snoc {S} k : forall i (body : nat -> S -> res S) s, forN (Datatypes.S k) i body s = bind (forN k i body s) (body (i + k)).
Proof.
  induction k as [|k IH]; intros i body s.
  - rewrite forN_S, Nat.add_0_r. cbn [forN bind]. destruct (body i s); reflexivity.
  - rewrite forN_S. rewrite (forN_S k i). destruct (body i s) as [t| |]; cbn [bind]; [|reflexivity|reflexivity]. rewrite IH. replace (Datatypes.S i + k) with (i + Datatypes.S k) by lia. reflexivity.
Qed.

Section Out.
Context {E : Env}.
Variable p : xmss_params.
Variable Hf : bytes -> bytes.
Hypothesis Hp : params_ok p.
Hypothesis HH : hash_total p Hf.
Notation P := (sp_of p Hf).
Notation n := (p_n p).
Notation H := (tree_height p).
Notation ib := (index_bytes p).
Notation wsig := (wots_sig_bytes p).
Notation d := (p_d p).
Variables (sks prfk rt seed : bytes).
Hypothesis Hs1 : length sks = n.
Hypothesis Hs2 : length prfk = n.
Hypothesis Hs3 : length rt = n.
Hypothesis Hs4 : length seed = n.

(** the part of the signature above layer 0 as it is copied from the traversal data *)
Definition upper (ss : list bds_state) (ws : bytes) (i : nat) : bytes :=
  firstn wsig (skipn ((i - 1) * wsig) ws) ++ st_auth (nth i ss (mkBds [] 0 [] [] [] [] [] 0%N)).
Definition sig_out (idx : N) (m : bytes) (L T o : N) (au : bytes) (ups : bytes) : bytes :=
  let R := PRF P prfk (toByte idx 32) in
  toByte idx ib ++ R ++ concat (wots_sig P seed L T o sks (H_msg P R rt idx m)) ++ au ++ ups.

Lemma mt_output idx ixb ss ws ext sm m : length ixb = ib -> length ss = nstates p -> (forall i, i < d -> length (st_auth (nth i ss (mkBds [] 0 [] [] [] [] [] 0%N))) = H * n) ->
  length ws = (d - 1) * wsig -> sig_bytes p + length m <= length sm -> (idx < 2 ^ N.of_nat (full_height p))%N ->
  let T := N.shiftr idx (N.of_nat H) in
  let lf := (idx mod 2 ^ N.of_nat H)%N in
  let a := set_tree_addr addr_zero (T + 1) in
  exists ots, ots_ctx ots 0 T lf /\
  forall ss2 v sk2,
    (if (u64 ((1 + T) * 2 ^ N.of_nat H + lf) <? 2 ^ N.of_nat (full_height p))%N
     then let* nx := rdc ss d in let* nx := bds_state_update p nx sks seed a in wrc ss d nx else Ok ss) = Ok ss2 ->
    forN d 0 (mt_layer_step p idx sks seed) (mkMt ss2 ws a ots (N.shiftr (f_tree_height p - f_bds_k p) 1) (-1)) = Ok v ->
    xmssmt_serialize_state p (sk_layout (toByte (idx + 1) ib) sks prfk rt seed ext) (mv_ss v) (mv_ws v) = Ok sk2 ->
    fast_mt_sign_body p idx (sk_layout ixb sks prfk rt seed ext) ss ws sm m =
    Ok (mkSign 0 sk2 (sig_out idx m 0 T lf (st_auth (nth 0 ss (mkBds [] 0 [] [] [] [] [] 0%N))) (concat (map (upper ss ws) (seq 1 (d - 1)))) ++ m ++ skipn (sig_bytes p + length m) sm)
          (sig_bytes p + length m)).
Proof.
  intros Hix Hss Hau Hws Hsm Hidx T lf a. pose proof (po_th p Hp) as H30. pose proof (po_pad p Hp) as Hpad. pose proof (po_d p Hp) as Hd.
  pose proof (po_ib_le p Hp) as [Hib8 _]. pose proof (po_h64 p Hp) as Hh64.
  pose proof (sig_bytes_eq p Hp) as Hsb. unfold layer_bytes in Hsb.
  assert (Hi64 : (idx + 1 < 2 ^ 64)%N).
  { assert (2 ^ N.of_nat (full_height p) <= 2 ^ 63)%N by (apply N.pow_le_mono_r; [discriminate|lia]). change (2 ^ 64)%N with (2 * 2 ^ 63)%N. lia. }
  assert (HlfH : (lf < 2 ^ N.of_nat H)%N) by (apply N.mod_lt, N.pow_nonzero; discriminate).
  assert (HH30 : (2 ^ N.of_nat H <= 2 ^ 30)%N) by (apply N.pow_le_mono_r; [discriminate|lia]).
  assert (Hlf32 : (lf < 2 ^ 32)%N) by (apply N.lt_le_trans with (2 ^ 30)%N; [lia|discriminate]).
  set (R := PRF P prfk (toByte idx 32)). assert (HR : length R = n) by apply (PRF_length p Hf HH).
  set (M := H_msg P R rt idx m).
  assert (HMl : length M = n) by apply (Hf_length p Hf HH). assert (HMb : bytes_ok M) by apply (Hf_bytes p Hf HH).
  set (ots0 := set_ots_addr (set_tree_addr (set_layer_addr (set_type addr_zero 0) 0) T) lf).
  destruct (wots_sign_spec p Hf Hp HH seed 0 T lf Hs4 sks M ots0 Hs1 HMb HMl) as [ots [Hwo Hots]].
  { assert (HT64 : u64 T = T).
    { unfold u64. apply N.mod_small. unfold T. rewrite N.shiftr_div_pow2. apply N.le_lt_trans with idx; [|lia].
      apply N.div_le_upper_bound; [apply N.pow_nonzero; discriminate|]. pose proof (ProofTree.pow2_pos H). nia. }
    split; [unfold words, ots0; cbn; rewrite HT64; repeat split|reflexivity]. }
  exists ots. split; [exact Hots|]. intros ss2 v sk2 E1 E2 E3.
  unfold fast_mt_sign_body. cbv zeta. unfold sk_layout at 1.
  rewrite (rd_at _ ixb sks (prfk ++ rt ++ seed ++ ext)) by (reflexivity || lia). rewrite bind_ok.
  rewrite (rd_at (sk_layout ixb sks prfk rt seed ext) (ixb ++ sks) prfk (rt ++ seed ++ ext)) by (unfold sk_layout; rewrite <- ?app_assoc, ?app_length; reflexivity || lia). rewrite bind_ok.
  rewrite (rd_at _ (ixb ++ sks ++ prfk ++ rt) seed ext) by (unfold sk_layout; rewrite <- ?app_assoc, ?app_length; reflexivity || lia). rewrite bind_ok.
  rewrite ull_to_bytes_spec. unfold u64 at 1. rewrite N.mod_small by exact Hi64. unfold sk_layout at 1.
  rewrite (wr_at _ [] ixb (sks ++ prfk ++ rt ++ seed ++ ext)) by (rewrite ?toByte_length; reflexivity || lia). rewrite bind_ok. cbn [app].
  set (ix' := toByte (idx + 1) ib) in *. assert (Hix' : length ix' = ib) by apply toByte_length.
  rewrite ull_to_bytes_spec, (prf_spec p Hf HH) by (rewrite ?toByte_length; reflexivity || lia). rewrite bind_ok. fold R.
  destruct (wr_step sm m (sig_bytes p) Hsm) as (sm1 & W1 & W1l & W1f & W1s). rewrite W1, bind_ok.
  rewrite (rd_at _ (ix' ++ sks ++ prfk) rt (seed ++ ext)) by (rewrite <- ?app_assoc, ?app_length; reflexivity || lia). rewrite bind_ok.
  destruct (Nat.ltb_spec (sig_bytes p) (padding_len p + 3 * n)) as [?|_]; [lia|].
  set (tail := skipn (sig_bytes p + length m) sm) in *.
  assert (Hsm1 : skipn (sig_bytes p) sm1 = m ++ tail).
  { rewrite <- (firstn_skipn (sig_bytes p + length m) sm1) at 1. rewrite W1f, W1s by lia. rewrite <- app_assoc. apply skipn_app_len. rewrite firstn_length. lia. }
  destruct (hash_message_spec p Hf HH (fun _ => Ok R) rt idx sm1 (sig_bytes p - padding_len p - 3 * n) (length m) R m)
    as (sm2 & Hhm & Hsm2l & _ & Hsm2t).
  { reflexivity. } { lia. } { exact HR. } { lia. } { lia. }
  { replace (sig_bytes p - padding_len p - 3 * n + padding_len p + 3 * n) with (sig_bytes p) by lia.
    rewrite Hsm1. symmetry. apply firstn_app_len. lia. }
  rewrite Hhm, bind_ok. replace (firstn n rt) with rt by (symmetry; apply firstn_all2; lia).
  replace (sig_bytes p - padding_len p - 3 * n + padding_len p + 3 * n) with (sig_bytes p) in Hsm2t by lia. rewrite Hsm1 in Hsm2t.
  fold M. rewrite ull_to_bytes_spec. set (ixs := toByte idx ib). assert (Hixs : length ixs = ib) by apply toByte_length.
  set (wz := d * (wsig + H * n)) in *.
  assert (Hwz : wz = wsig + H * n + (d - 1) * (wsig + H * n)) by (unfold wz; destruct d as [|x]; [lia|]; cbn [Nat.sub Nat.mul]; rewrite Nat.sub_0_r; lia).
  set (uz := (d - 1) * (wsig + H * n)) in *.
  destruct (wr_step sm2 ixs 0 ltac:(lia)) as (sm3 & W3 & W3l & W3f & W3s). rewrite W3, bind_ok. cbn [firstn app Nat.add] in W3f, W3s.
  destruct (wr_step sm3 R ib ltac:(lia)) as (sm4 & W4 & W4l & W4f & W4s). rewrite W4, bind_ok. rewrite Hixs in W3f. rewrite W3f in W4f.
  unfold shr_ull at 1. destruct (Nat.ltb_spec H 64) as [_|]; [|lia]. rewrite bind_ok. fold T.
  unfold shl1_int at 1. destruct (Nat.ltb_spec H 31) as [_|]; [|lia]. rewrite bind_ok.
  assert (Hland : u32 (N.land idx (2 ^ N.of_nat H - 1)) = lf).
  { rewrite <- N.pred_sub, <- N.ones_equiv, N.land_ones. unfold u32. apply N.mod_small. exact Hlf32. }
  rewrite Hland. fold ots0. rewrite Hwo, bind_ok. clear Hwo.
  set (wsg := concat (wots_sig P seed 0 T lf sks M)).
  assert (Hwsg : length wsg = wsig).
  { unfold wsg. rewrite (chunked_length n) by apply (wots_sig_chunked p Hf HH).
    rewrite (wots_sig_length p Hf Hp), (po_wsig p Hp). reflexivity. }
  destruct (wr_step sm4 wsg (ib + n) ltac:(lia)) as (sm5 & W5 & W5l & W5f & W5s). rewrite W5, bind_ok. rewrite HR in W4f. rewrite W4f in W5f.
  set (dft := mkBds [] 0 [] [] [] [] [] 0%N) in *.
  assert (Hns : nstates p = 2 * d - 1) by reflexivity.
  rewrite (rdc_ok ss 0 dft) by lia. rewrite bind_ok.
  set (au := st_auth (nth 0 ss dft)) in *. assert (Haul : length au = H * n) by (apply Hau; lia).
  rewrite rd_all by lia. rewrite bind_ok.
  destruct (wr_step sm5 au (ib + n + wsig) ltac:(lia)) as (sm6 & W6 & W6l & W6f & W6s). rewrite W6, bind_ok. rewrite Hwsg in W5f. rewrite W5f in W6f.
  rewrite Haul in W6f. rewrite <- !app_assoc in W6f.
  set (pfx := ixs ++ R ++ wsg ++ au) in *. assert (Hpfx : length pfx = ib + n + wsig + H * n) by (unfold pfx; rewrite !app_length; lia).
  set (o0 := ib + n + wsig + H * n) in *.
  (* the upper layers *)
  assert (Hup : forall i, i < d -> 1 <= i -> length (upper ss ws i) = wsig + H * n).
  { intros i Hi1 Hi2. unfold upper. rewrite app_length, firstn_length, skipn_length, Hau, Hws by assumption.
    pose proof (slice_le (i - 1) (d - 1) wsig ltac:(lia)) as Hsl. clear - Hsl. lia. }
  assert (Hloop : forall c, c <= d - 1 -> exists smc,
     forN c 1 (fun i '(sm, o) =>
        let* sg := rd ws ((i - 1) * wsig) wsig in
        let* sm := wr sm o sg in
        let o := o + wsig in
        let* si := rdc ss i in
        let* au := rd (st_auth si) 0 (H * n) in
        let* sm := wr sm o au in
        Ok (sm, o + H * n)) (sm6, o0) = Ok (smc, o0 + c * (wsig + H * n)) /\
     length smc = length sm6 /\ firstn (o0 + c * (wsig + H * n)) smc = pfx ++ concat (map (upper ss ws) (seq 1 c)) /\
     (forall z, o0 + c * (wsig + H * n) <= z -> skipn z smc = skipn z sm6)).
  { induction c as [|c IHc]; intros Hc.
    - exists sm6. cbn [forN seq map concat Nat.mul]. rewrite Nat.add_0_r, app_nil_r. repeat split; auto.
    - destruct IHc as (smc & I1 & I2 & I3 & I4); [lia|].
      rewrite forN_snoc, I1, bind_ok. cbv beta iota zeta.
      pose proof (slice_le c (d - 1) (wsig + H * n) ltac:(lia)) as Hcz. fold uz in Hcz. set (cz := c * (wsig + H * n)) in *.
      replace (1 + c - 1) with c by (cbn [Nat.add Nat.sub]; now rewrite Nat.sub_0_r).
      pose proof (slice_le c (d - 1) wsig ltac:(lia)) as Hcw. rewrite <- Hws in Hcw. set (cw := c * wsig) in *.
      rewrite rd_ok by lia. rewrite bind_ok. set (sg := firstn wsig (skipn cw ws)).
      assert (Hsg : length sg = wsig) by (unfold sg; rewrite firstn_length, skipn_length; lia).
      destruct (wr_step smc sg (o0 + cz) ltac:(lia)) as (x1 & X1 & X1l & X1f & X1s). rewrite X1, bind_ok. rewrite Hsg, I3 in X1f. rewrite Hsg in X1s.
      rewrite (rdc_ok ss (1 + c) dft) by lia. rewrite bind_ok.
      assert (Hac : length (st_auth (nth (1 + c) ss dft)) = H * n) by (apply Hau; lia).
      rewrite rd_all by lia. rewrite bind_ok.
      destruct (wr_step x1 (st_auth (nth (1 + c) ss dft)) (o0 + cz + wsig) ltac:(lia)) as (x2 & X2 & X2l & X2f & X2s). rewrite X2, bind_ok. rewrite Hac, X1f in X2f. rewrite Hac in X2s.
      exists x2. replace (o0 + S c * (wsig + H * n)) with (o0 + cz + wsig + H * n) by (unfold cz; cbn [Nat.mul]; lia).
      split; [reflexivity|]. split; [lia|]. split.
      + rewrite X2f. rewrite seq_S, map_app, concat_app. cbn [map concat]. rewrite app_nil_r. assert (Hu : upper ss ws (1 + c) = sg ++ st_auth (nth (1 + c) ss dft)) by (unfold upper, sg, cw; cbn [Nat.add Nat.sub]; rewrite Nat.sub_0_r; reflexivity).
        rewrite Hu, <- !app_assoc. reflexivity.
      + intros z Hz. rewrite X2s, X1s, I4 by lia. reflexivity. }
  destruct (Hloop (d - 1) (le_n _)) as (sm7 & L1 & L2 & L3 & L4). clear Hloop. fold uz in L1, L3, L4. cbv zeta in L1. rewrite L1, bind_ok. clear L1.
  unfold shl1_ull. destruct (Nat.ltb_spec (full_height p) 64) as [_|]; [|lia]. rewrite bind_ok.
  fold a. rewrite E1, bind_ok, E2, bind_ok.
  destruct (wr_step sm7 m (o0 + uz) ltac:(lia)) as (sm8 & W8 & W8l & W8f & W8s). rewrite W8, bind_ok. rewrite L3 in W8f.
  unfold sk_layout in E3. rewrite E3, bind_ok. f_equal. f_equal; [|lia].
  rewrite <- (firstn_skipn (sig_bytes p + length m) sm8).
  replace (sig_bytes p + length m) with (o0 + uz + length m) at 1 by lia. rewrite W8f.
  rewrite (W8s (sig_bytes p + length m)) by lia. rewrite (L4 (sig_bytes p + length m)) by lia. rewrite (W6s (sig_bytes p + length m)) by lia. rewrite (W5s (sig_bytes p + length m)) by lia.
  rewrite (W4s (sig_bytes p + length m)) by lia. rewrite (W3s (sig_bytes p + length m)) by lia.
  rewrite (Nat.add_comm (sig_bytes p)), <- skipn_skipn, Hsm2t, skipn_app_len by reflexivity.
  unfold sig_out. cbv zeta. fold R M. unfold pfx. fold wsg ixs. rewrite <- !app_assoc. reflexivity.
Qed.

(** the same for a single tree *)
Lemma single_output idx ixb s ext sm m : d = 1 -> length ixb = ib -> length (st_auth s) = H * n ->
  sig_bytes p + length m <= length sm -> (idx < 2 ^ N.of_nat H)%N ->
  exists ots, ots_ctx ots 0 0 idx /\
  forall s2 sk2, ((if (idx <? 2 ^ N.of_nat H - 1)%N then
       let* s := bds_round p s idx sks seed ots in
       let* (s, _) := bds_treehash_update p s (N.shiftr (f_tree_height p - f_bds_k p) 1) sks seed ots in
       Ok s
     else Ok s) = Ok s2 ->
   xmssmt_serialize_state p (sk_layout (toByte (idx + 1) ib) sks prfk rt seed ext) [s2] [] = Ok sk2 ->
   fast_sign_body p idx (sk_layout ixb sks prfk rt seed ext) [s] [] sm m =
   Ok (mkSign 0 sk2 (sig_out idx m 0 0 idx (st_auth s) [] ++ m ++ skipn (sig_bytes p + length m) sm) (sig_bytes p + length m))).
Proof.
  intros Hd Hix Hau Hsm Hidx. pose proof (po_th p Hp) as H30. pose proof (po_pad p Hp) as Hpad.
  assert (Hib : ib = 4) by (rewrite (po_ib p Hp); unfold sp_ib, sp_of; cbn [sp_d]; now rewrite Hd).
  pose proof (sig_bytes_eq p Hp) as Hsb. rewrite Hd, Nat.mul_1_l in Hsb. unfold layer_bytes in Hsb.
  assert (HH30 : (2 ^ N.of_nat H <= 2 ^ 30)%N) by (apply N.pow_le_mono_r; [discriminate|lia]).
  assert (Hi32 : (idx < 2 ^ 32)%N) by (apply N.lt_le_trans with (2 ^ 30)%N; [lia|discriminate]).
  set (R := PRF P prfk (toByte idx 32)). assert (HR : length R = n) by apply (PRF_length p Hf HH).
  set (M := H_msg P R rt idx m).
  assert (HMl : length M = n) by apply (Hf_length p Hf HH). assert (HMb : bytes_ok M) by apply (Hf_bytes p Hf HH).
  destruct (wots_sign_spec p Hf Hp HH seed 0 0 idx Hs4 sks M (set_ots_addr (set_type addr_zero 0) idx) Hs1 HMb HMl) as [ots [Hwo Hots]].
  { split; [repeat split|reflexivity]. }
  exists ots. split; [exact Hots|]. intros s2 sk2 E1 E3.
  unfold fast_sign_body. cbv zeta. rewrite Hib in *. unfold sk_layout at 1.
  rewrite (rd_at _ ixb sks (prfk ++ rt ++ seed ++ ext)) by (reflexivity || lia). rewrite bind_ok.
  rewrite (rd_at (sk_layout ixb sks prfk rt seed ext) (ixb ++ sks) prfk (rt ++ seed ++ ext)) by (unfold sk_layout; rewrite <- ?app_assoc, ?app_length; reflexivity || lia). rewrite bind_ok.
  rewrite (rd_at _ (ixb ++ sks ++ prfk ++ rt) seed ext) by (unfold sk_layout; rewrite <- ?app_assoc, ?app_length; reflexivity || lia). rewrite bind_ok.
  rewrite (rdc_ok [s] 0 s) by (cbn; lia). rewrite bind_ok. cbn [nth].
  rewrite ull_to_bytes_spec. unfold sk_layout at 1.
  rewrite (wr_at _ [] ixb (sks ++ prfk ++ rt ++ seed ++ ext)) by (rewrite ?toByte_length; reflexivity || lia). rewrite bind_ok. cbn [app].
  set (ix' := toByte (idx + 1) 4) in *. assert (Hix' : length ix' = 4) by apply toByte_length.
  rewrite ull_to_bytes_spec, (prf_spec p Hf HH) by (rewrite ?toByte_length; reflexivity || lia). rewrite bind_ok. fold R.
  destruct (wr_step sm m (sig_bytes p) Hsm) as (sm1 & W1 & W1l & W1f & W1s). rewrite W1, bind_ok.
  rewrite (rd_at _ (ix' ++ sks ++ prfk) rt (seed ++ ext)) by (rewrite <- ?app_assoc, ?app_length; reflexivity || lia). rewrite bind_ok.
  destruct (Nat.ltb_spec (sig_bytes p) (padding_len p + 3 * n)) as [?|_]; [lia|].
  set (tail := skipn (sig_bytes p + length m) sm) in *.
  assert (Hsm1 : skipn (sig_bytes p) sm1 = m ++ tail).
  { rewrite <- (firstn_skipn (sig_bytes p + length m) sm1) at 1. rewrite W1f, W1s by lia. rewrite <- app_assoc. apply skipn_app_len. rewrite firstn_length. lia. }
  destruct (hash_message_spec p Hf HH (fun _ => Ok R) rt idx sm1 (sig_bytes p - padding_len p - 3 * n) (length m) R m)
    as (sm2 & Hhm & Hsm2l & _ & Hsm2t).
  { reflexivity. } { lia. } { exact HR. } { lia. } { lia. }
  { replace (sig_bytes p - padding_len p - 3 * n + padding_len p + 3 * n) with (sig_bytes p) by lia.
    rewrite Hsm1. symmetry. apply firstn_app_len. lia. }
  rewrite Hhm, bind_ok. replace (firstn n rt) with rt by (symmetry; apply firstn_all2; lia).
  replace (sig_bytes p - padding_len p - 3 * n + padding_len p + 3 * n) with (sig_bytes p) in Hsm2t by lia. rewrite Hsm1 in Hsm2t.
  fold M. rewrite ull_to_bytes_spec. set (ixs := toByte idx 4). assert (Hixs : length ixs = 4) by apply toByte_length.
  destruct (wr_step sm2 ixs 0 ltac:(lia)) as (sm3 & W3 & W3l & W3f & W3s). rewrite W3, bind_ok. cbn [firstn app Nat.add] in W3f, W3s.
  destruct (wr_step sm3 R 4 ltac:(lia)) as (sm4 & W4 & W4l & W4f & W4s). rewrite W4, bind_ok. rewrite Hixs in W3f. rewrite W3f in W4f.
  rewrite Hwo, bind_ok. clear Hwo.
  set (wsg := concat (wots_sig P seed 0 0 idx sks M)).
  assert (Hwsg : length wsg = wsig).
  { unfold wsg. rewrite (chunked_length n) by apply (wots_sig_chunked p Hf HH).
    rewrite (wots_sig_length p Hf Hp), (po_wsig p Hp). reflexivity. }
  destruct (wr_step sm4 wsg (4 + n) ltac:(lia)) as (sm5 & W5 & W5l & W5f & W5s). rewrite W5, bind_ok. rewrite HR in W4f. rewrite W4f in W5f.
  rewrite rd_all by lia. rewrite bind_ok. set (au := st_auth s) in *.
  destruct (wr_step sm5 au (4 + n + wsig) ltac:(lia)) as (sm6 & W6 & W6l & W6f & W6s). rewrite W6, bind_ok. rewrite Hwsg in W5f. rewrite W5f in W6f.
  unfold shl1_uint. destruct (Nat.ltb_spec H 32) as [_|]; [|lia]. rewrite bind_ok.
  rewrite E1, bind_ok.
  destruct (wr_step sm6 m (4 + n + wsig + H * n) ltac:(lia)) as (sm7 & W7 & W7l & W7f & W7s). rewrite W7, bind_ok. rewrite Hau in W6f. rewrite W6f in W7f.
  rewrite wrc_ok, bind_ok by (cbn; lia). cbn [upd].
  unfold sk_layout in E3. rewrite E3, bind_ok. f_equal. f_equal; [|lia].
  rewrite <- (firstn_skipn (sig_bytes p + length m) sm7).
  replace (sig_bytes p + length m) with (4 + n + wsig + H * n + length m) at 1 by lia. rewrite W7f.
  rewrite (W7s (sig_bytes p + length m)) by lia. rewrite (W6s (sig_bytes p + length m)) by lia. rewrite (W5s (sig_bytes p + length m)) by lia.
  rewrite (W4s (sig_bytes p + length m)) by lia. rewrite (W3s (sig_bytes p + length m)) by lia.
  rewrite (Nat.add_comm (sig_bytes p)), <- skipn_skipn, Hsm2t, skipn_app_len by reflexivity.
  unfold sig_out. cbv zeta. rewrite Hib. fold R M. fold wsg ixs. rewrite app_nil_r, <- !app_assoc. reflexivity.
Qed.
End Out.

(** ** The last index and exhausted keys *)
Section End_of_key.
Context {E : Env}.
Variable p : xmss_params.
Variable Hf : bytes -> bytes.
Hypothesis Hp : params_ok p.
Hypothesis HH : hash_total p Hf.
Notation P := (sp_of p Hf).
Notation n := (p_n p).
Notation H := (tree_height p).
Notation ib := (index_bytes p).
Notation wsig := (wots_sig_bytes p).
Notation d := (p_d p).
Hypothesis Hk : bds_k p < H.
Hypothesis Hskb : ModelParams.sk_bytes p = ib + 4 * n + ser_bytes p.
Variables (sks prfk rt seed ext : bytes).
Hypothesis Hs1 : length sks = n.
Hypothesis Hs2 : length prfk = n.
Hypothesis Hs3 : length rt = n.
Hypothesis Hs4 : length seed = n.
Hypothesis Hext : length ext = ser_bytes p.
(** the traversal part decodes *)
Definition ser_image (ext : bytes) : Prop :=
  exists ss ws, ext = concat (map (store_state p) ss) ++ ws /\ states_ok p ss /\ length ws = (d - 1) * wsig.
Hypothesis Hbext : ser_image ext.
Notation z := (repeat 0%N n).
Notation lim := (2 ^ N.of_nat (full_height p))%N.

Lemma H30 : H <= 30. Proof. pose proof (po_th p Hp). lia. Qed.
Lemma d1 : 1 <= d. Proof. exact (po_d p Hp). Qed.
Lemma deser_any ixb : length ixb = ib -> exists ss ws, states_ok p ss /\ length ws = (d - 1) * wsig /\
  xmssmt_deserialize_state p (sk_layout ixb sks prfk rt seed ext) = Ok (ss, ws).
Proof.
  intros Hix. destruct Hbext as (ss & ws & He & Hss & Hws).
  exists ss, ws. split; [exact Hss|]. split; [exact Hws|].
  replace (sk_layout ixb sks prfk rt seed ext) with ((ixb ++ sks ++ prfk ++ rt ++ seed) ++ concat (map (store_state p) ss) ++ ws ++ []).
  - apply deserialize_spec; try assumption; [exact H30|exact d1|]. rewrite !app_length. lia.
  - rewrite He, app_nil_r. unfold sk_layout. rewrite <- !app_assoc. reflexivity.
Qed.
Lemma wipe_fast ixb : length ixb = ib ->
  (let* sk := wr (sk_layout ixb sks prfk rt seed ext) 0 (repeat 255%N ib) in
   wr sk ib (repeat 0%N (ModelParams.sk_bytes p - ib))) =
  Ok (sk_layout (repeat 255%N ib) z z z z (repeat 0%N (ser_bytes p))).
Proof. intros Hix. rewrite (wipe_spec p Hp sks prfk rt seed ext Hs1 Hs2 Hs3 Hs4 ixb Hix) by lia. now rewrite Hext. Qed.

(** the flavour of sign *)
Definition fsign (mt : bool) := if mt then fast_xmssmt_core_sign p else fast_xmss_core_sign p.

Lemma fast_exhausted mt idx sm smlen m : mt = true \/ ib = 4 -> (lim <= idx < 256 ^ N.of_nat ib)%N ->
  fsign mt (sk_layout (toByte idx ib) sks prfk rt seed ext) sm smlen m =
  Ok (mkSign (-2) (sk_layout (repeat 255%N ib) z z z z (repeat 0%N (ser_bytes p))) sm smlen).
Proof.
  intros Hmt [Hlo Hhi]. pose proof (ProofTree.pow2_pos (full_height p)) as Hpos. pose proof (po_h64 p Hp) as Hh64. pose proof (po_ib_le p Hp) as [Hib8 _].
  assert (Hib4 : mt = false -> ib = 4) by (intros ->; destruct Hmt; [discriminate|assumption]).
  destruct (deser_any (toByte idx ib) (toByte_length _ _)) as (ss & ws & _ & _ & Hde).
  pose proof (wipe_fast (toByte idx ib) (toByte_length _ _)) as Hw.
  assert (Hrd : rd (sk_layout (toByte idx ib) sks prfk rt seed ext) 0 ib = Ok (toByte idx ib)) by (apply rd_head; now rewrite toByte_length).
  destruct mt; cbn [fsign]; [unfold fast_xmssmt_core_sign|unfold fast_xmss_core_sign; rewrite <- (Hib4 eq_refl)]; cbv zeta;
    rewrite Hde, bind_ok, Hrd, bind_ok, ull_field by assumption; rewrite bind_ok;
    (unfold shl1_ull; destruct (Nat.ltb_spec (full_height p) 64) as [_|]; [|lia]); rewrite bind_ok;
    (destruct (N.leb_spec (lim - 1) idx) as [_|]; [|lia]);
    revert Hw; (destruct (wr (sk_layout (toByte idx ib) sks prfk rt seed ext) 0 (repeat 255%N ib)) as [sk1| |]; intros Hw; try discriminate);
    cbn [bind] in Hw; rewrite bind_ok, Hw, bind_ok;
    (destruct (N.ltb_spec (lim - 1) idx) as [_|]; [reflexivity|lia]).
Qed.

(** the wiped key seen as traversal data: all arrays are zero *)
Lemma zero_deser ixb : length ixb = ib -> exists zs,
  xmssmt_deserialize_state p (sk_layout ixb z z z z (repeat 0%N (ser_bytes p))) = Ok (zs, repeat 0%N ((d - 1) * wsig)) /\
  states_ok p zs /\ Forall (fun s => st_auth s = repeat 0%N (H * n)) zs.
Proof.
  intros Hix. destruct (ser_of_bytes p Hk H30 d1 (repeat 0%N (ser_bytes p)) (repeat_length _ _)) as (zs & ws & He & Hzs & Hws).
  { apply Forall_forall. intros x Hx. apply repeat_spec in Hx. subst. reflexivity. }
  exists zs. symmetry in He. destruct (app_repeat_inv _ _ _ _ He) as [Hz Hw]. rewrite Hws in Hw. split; [|split; [exact Hzs|]].
  - rewrite <- He, Hw. replace (sk_layout ixb z z z z (concat (map (store_state p) zs) ++ repeat 0%N ((d - 1) * wsig)))
      with ((ixb ++ z ++ z ++ z ++ z) ++ concat (map (store_state p) zs) ++ repeat 0%N ((d - 1) * wsig) ++ []).
    + apply deserialize_spec; try assumption; [exact H30|exact d1| |apply repeat_length]. rewrite !app_length, !repeat_length. lia.
    + unfold sk_layout. rewrite app_nil_r, <- !app_assoc. reflexivity.
  - destruct Hzs as (_ & Hsh & _). clear - Hz Hsh. revert Hz Hsh. generalize (length (concat (map (store_state p) zs))).
    induction zs as [|s zs IH]; intros k Hz Hsh; constructor; inversion Hsh as [|? ? S1 S2]; subst; cbn [map concat] in Hz.
    + destruct (app_repeat_inv _ _ _ _ Hz) as [Hs _]. unfold store_state in Hs.
      destruct (app_repeat_inv _ _ _ _ Hs) as [_ G1]. destruct (app_repeat_inv _ _ _ _ G1) as [_ G2]. destruct (app_repeat_inv _ _ _ _ G2) as [_ G3].
      destruct (app_repeat_inv _ _ _ _ G3) as [G4 _]. rewrite G4. f_equal. now apply sh_auth.
    + destruct (app_repeat_inv _ _ _ _ Hz) as [_ Hs]. eapply IH; [exact Hs|exact S2].
Qed.

(** the arrays of one state with the scalars of another *)
Lemma reload_ths_ok (la lb : list treehash_inst) : length la = length lb ->
  let l := map (fun q => reload_th (fst q) (snd q)) (combine la lb) in
  length l = length la /\ map th_node l = map th_node la /\ (Forall th_range lb -> Forall th_range l).
Proof.
  revert lb. induction la as [|a la IH]; intros [|b lb] Hl; try discriminate; cbn [combine map length]; [repeat split; auto|].
  destruct (IH lb ltac:(now injection Hl)) as (I1 & I2 & I3). cbn [fst snd]. split; [now rewrite I1|]. split; [now rewrite I2|].
  intros Hr. inversion Hr as [|? ? R1 R2]; subst. constructor; [exact R1|now apply I3].
Qed.
Lemma reload_ok a b : shape p a -> shape p b -> in_range b ->
  shape p (reload a b) /\ in_range (reload a b) /\ st_auth (reload a b) = st_auth a.
Proof.
  intros Sa Sb Rb. pose proof (sh_th p a Sa) as Ta. pose proof (sh_th p b Sb) as Tb.
  destruct (reload_ths_ok (st_treehash a) (st_treehash b) ltac:(congruence)) as (I1 & I2 & I3). cbv zeta in *.
  set (l := map (fun q => reload_th (fst q) (snd q)) (combine (st_treehash a) (st_treehash b))) in *.
  assert (Hmem : forall t, In t l -> exists t', In t' (st_treehash a) /\ th_node t = th_node t').
  { intros t Ht. apply (in_map th_node) in Ht. rewrite I2 in Ht. apply in_map_iff in Ht. destruct Ht as (t' & A & B). exists t'. auto. }
  assert (Hnd : forall t, In t (st_treehash a) -> length (th_node t) = n).
  { intros t Ht. pose proof (shape_nodes p a Sa) as Hs. rewrite Forall_forall in Hs. now apply Hs. }
  split; [|split; [|reflexivity]].
  - constructor; cbn [reload st_stack st_stacklevels st_auth st_keep st_treehash st_retain]; try apply Sa.
    + fold l. now rewrite I1.
    + fold l. intros j t Ht. apply nth_error_In in Ht. destruct (Hmem t Ht) as (t' & A & B). rewrite B. now apply Hnd.
  - destruct Rb as (R1 & R2 & R3). split; [exact R1|]. split; [exact R2|]. cbn [reload st_treehash]. fold l. now apply I3.
Qed.
Lemma reload_all_ok zs ss : states_ok p zs -> states_ok p ss -> Forall (fun s => st_auth s = repeat 0%N (H * n)) zs ->
  states_ok p (reload_all zs ss) /\ Forall (fun s => st_auth s = repeat 0%N (H * n)) (reload_all zs ss).
Proof.
  intros (L1 & S1 & R1) (L2 & S2 & R2) A1.
  assert (Hl : length zs = length ss) by congruence. rewrite <- L1 in L2. unfold states_ok. rewrite <- L1. clear L1 L2 R1. revert ss S2 R2 Hl.
  induction zs as [|a zs IH]; intros [|b ss] S2 R2 Hl; try discriminate.
  - repeat split; constructor.
  - inversion S1; inversion A1; inversion S2; inversion R2; subst.
    destruct (IH ltac:(assumption) ltac:(assumption) ss ltac:(assumption) ltac:(assumption) ltac:(now injection Hl)) as ((I1 & I2 & I3) & I4).
    destruct (reload_ok a b) as (O1 & O2 & O4); try assumption.
    cbn [reload_all combine map fst snd length] in *. split; [split; [|split]|].
    + unfold reload_all in I1. cbn [length]. now rewrite I1.
    + constructor; assumption.
    + constructor; assumption.
    + constructor; [|assumption]. rewrite O4. assumption.
Qed.

Lemma fast_last mt sm smlen m : mt = true \/ d = 1 -> sig_bytes p + length m <= length sm ->
  let idx := (lim - 1)%N in
  let R := PRF P z (toByte idx 32) in
  exists ext', length ext' = ser_bytes p /\ ser_image ext' /\
  fsign mt (sk_layout (toByte idx ib) sks prfk rt seed ext) sm smlen m =
  Ok (mkSign 0 (sk_layout (toByte lim ib) z z z z ext')
       ((toByte idx ib ++ R ++ concat (wots_sig P z 0 (tree_of P idx 0) (leaf_of P idx 0) z (H_msg P R z idx m)) ++ repeat 0%N (H * n + (d - 1) * (wsig + H * n))) ++
        m ++ skipn (sig_bytes p + length m) sm) (sig_bytes p + length m)).
Proof.
  intros Hmt Hsm idx R. pose proof (ProofTree.pow2_pos (full_height p)) as Hpos. pose proof (po_h64 p Hp) as Hh64. pose proof (po_ib_le p Hp) as [Hib8 Hibh].
  pose proof (pow2_lt_256 _ _ Hibh) as Hp256. pose proof d1 as Hd1. pose proof H30 as Hh30.
  assert (Hib4 : mt = false -> ib = 4 /\ d = 1).
  { intros ->. destruct Hmt as [?|Hd]; [discriminate|]. split; [|exact Hd]. rewrite (po_ib p Hp). unfold sp_ib. cbn [sp_of sp_d]. now rewrite Hd. }
  destruct (deser_any (toByte idx ib) (toByte_length _ _)) as (ss & ws & Hss & Hws & Hde).
  pose proof (wipe_fast (toByte idx ib) (toByte_length _ _)) as Hw.
  assert (Hrd : rd (sk_layout (toByte idx ib) sks prfk rt seed ext) 0 ib = Ok (toByte idx ib)) by (apply rd_head; now rewrite toByte_length).
  destruct (zero_deser (repeat 255%N ib) (repeat_length _ _)) as (zs & Hzd & Hzs & Hza).
  destruct (reload_all_ok zs ss Hzs Hss Hza) as (Hrs & Hra).
  set (rs := reload_all zs ss) in *. set (wz := repeat 0%N ((d - 1) * wsig)).
  assert (Hwz : length wz = (d - 1) * wsig) by apply repeat_length.
  assert (Lrs : length rs = nstates p) by apply Hrs.
  assert (Hnth : forall i, i < d -> st_auth (nth i rs (mkBds [] 0 [] [] [] [] [] 0%N)) = repeat 0%N (H * n)).
  { intros i Hi. rewrite Forall_forall in Hra. apply Hra. apply nth_In. rewrite Lrs. unfold nstates. lia. }
  assert (Lz : length z = n) by apply repeat_length.
  exists (concat (map (store_state p) rs) ++ wz). split; [|split].
  { rewrite app_length, Hwz, (store_states_length p Hk Hh30 Hd1) by apply Hrs. rewrite Lrs. unfold ser_bytes. reflexivity. }
  { exists rs, wz. split; [reflexivity|]. split; [exact Hrs|exact Hwz]. }
  assert (Hser : forall ixb, length ixb = ib -> xmssmt_serialize_state p (sk_layout ixb z z z z (repeat 0%N (ser_bytes p))) rs wz = Ok (sk_layout ixb z z z z (concat (map (store_state p) rs) ++ wz))).
  { intros ixb Hix. replace (sk_layout ixb z z z z (repeat 0%N (ser_bytes p))) with ((ixb ++ z ++ z ++ z ++ z) ++ repeat 0%N (ser_bytes p) ++ []).
    - rewrite (serialize_spec p Hk Hh30 Hd1 (ixb ++ z ++ z ++ z ++ z) (repeat 0%N (ser_bytes p)) [] rs wz); try assumption; [|rewrite !app_length; lia|apply repeat_length].
      f_equal. unfold sk_layout. rewrite app_nil_r, <- !app_assoc. reflexivity.
    - unfold sk_layout. rewrite app_nil_r, <- !app_assoc. reflexivity. }
  assert (Hsucc : (idx + 1)%N = lim) by (unfold idx; lia).
  assert (Hidx : (idx < lim)%N) by (unfold idx; lia).
  assert (HT : tree_of P idx 0 = N.shiftr idx (N.of_nat H)).
  { unfold tree_of. rewrite (sp_th_of p Hf Hp), Nat.mul_1_r, N.shiftr_div_pow2. reflexivity. }
  assert (HL : leaf_of P idx 0 = (idx mod 2 ^ N.of_nat H)%N).
  { unfold leaf_of. rewrite (sp_th_of p Hf Hp), Nat.mul_0_r. change (2 ^ N.of_nat 0)%N with 1%N. now rewrite N.div_1_r. }
  destruct mt; cbn [fsign].
  - (* xmssmt *)
    unfold fast_xmssmt_core_sign. cbv zeta.
    rewrite Hde, bind_ok, Hrd, bind_ok, ull_field by (lia || assumption); rewrite bind_ok.
    unfold shl1_ull at 1; destruct (Nat.ltb_spec (full_height p) 64) as [_|]; [|lia]; rewrite bind_ok.
    fold idx. rewrite N.leb_refl, N.ltb_irrefl.
    revert Hw; destruct (wr (sk_layout (toByte idx ib) sks prfk rt seed ext) 0 (repeat 255%N ib)) as [sk1| |]; intros Hw; try discriminate.
    cbn [bind] in Hw. rewrite bind_ok, Hw, bind_ok.
    destruct (Nat.eqb_spec (full_height p) 64) as [?|_]; [lia|]. cbn [andb]. rewrite Hzd, bind_ok. fold rs wz.
    destruct (mt_output p Hf Hp HH z z z z Lz Lz Lz Lz idx (repeat 255%N ib) rs wz (repeat 0%N (ser_bytes p)) sm m (repeat_length _ _) Lrs) as (ots & _ & Hout); try assumption.
    { intros i Hi. now rewrite Hnth, repeat_length. }
    rewrite (Hout rs (mkMt rs wz (set_tree_addr addr_zero (N.shiftr idx (N.of_nat H) + 1)) ots (N.shiftr (f_tree_height p - f_bds_k p) 1) (-1)) (sk_layout (toByte lim ib) z z z z (concat (map (store_state p) rs) ++ wz))).
    + f_equal. f_equal. unfold sig_out. cbv zeta. fold R. rewrite Hnth by lia. rewrite HT, HL, repeat_app. rewrite <- !app_assoc. do 4 f_equal. f_equal.
      assert (Hcc : forall l, (forall i, In i l -> 1 <= i < d) -> concat (map (upper p rs wz) l) = repeat 0%N (length l * (wsig + H * n))).
      { induction l as [|i l IHl]; intros Hin; [reflexivity|]. cbn [map concat length Nat.mul]. rewrite IHl by (intros j Hj; apply Hin; now right). rewrite repeat_app. f_equal.
        pose proof (Hin i (or_introl eq_refl)) as Hi. unfold upper. rewrite Hnth by lia. rewrite repeat_app. f_equal. unfold wz.
        pose proof (slice_le (i - 1) (d - 1) wsig ltac:(lia)) as Hsl. set (a := (i - 1) * wsig) in *. set (b := (d - 1) * wsig) in *.
        replace b with (a + (wsig + (b - a - wsig))) by (clear - Hsl; clearbody a b; lia). rewrite !repeat_app.
        rewrite skipn_app_len by (symmetry; apply repeat_length). apply firstn_app_len. now rewrite repeat_length. }
      rewrite Hcc; [now rewrite seq_length|]. intros i Hi. apply in_seq in Hi. lia.
    + assert (Hge : (lim <= u64 ((1 + N.shiftr idx (N.of_nat H)) * 2 ^ N.of_nat H + idx mod 2 ^ N.of_nat H))%N).
      { rewrite N.shiftr_div_pow2. replace ((1 + idx / 2 ^ N.of_nat H) * 2 ^ N.of_nat H + idx mod 2 ^ N.of_nat H)%N with (2 ^ N.of_nat H + idx)%N.
        - assert (HHh : (2 ^ N.of_nat H <= lim)%N). { apply N.pow_le_mono_r; [discriminate|]. rewrite (po_h p Hp). destruct d as [|x]; [lia|]. cbn [Nat.mul]. lia. }
          assert (Hl63 : (lim <= 2 ^ 63)%N) by (apply N.pow_le_mono_r; [discriminate|lia]).
          unfold u64. rewrite N.mod_small; [|change (2 ^ 64)%N with (2 ^ 63 + 2 ^ 63)%N; unfold idx; lia]. pose proof (ProofTree.pow2_pos H). unfold idx. lia.
        - pose proof (N.div_mod' idx (2 ^ N.of_nat H)) as Hdm. rewrite N.mul_add_distr_r, N.mul_1_l. rewrite (N.mul_comm (idx / _)). lia. }
      destruct (N.ltb_spec (u64 ((1 + N.shiftr idx (N.of_nat H)) * 2 ^ N.of_nat H + idx mod 2 ^ N.of_nat H)) lim) as [?|_]; [lia|]. reflexivity.
    + set (v := mkMt _ _ _ _ _ _). assert (Hst : forall i, i < d -> mt_layer_step p idx z z i v = Ok v).
      { intros i Hi. unfold mt_layer_step. cbv zeta. assert (Hih : (i + 1) * H <= full_height p) by (rewrite (po_h p Hp); apply Nat.mul_le_mono_r; lia).
        unfold shl1_ull. destruct (Nat.ltb_spec ((i + 1) * H) 64) as [_|]; [|lia]. rewrite bind_ok. destruct (Nat.ltb_spec (full_height p) 64) as [_|]; [|lia]. rewrite bind_ok.
        unfold shl1_int. destruct (Nat.ltb_spec H 31) as [_|]; [|lia]. rewrite bind_ok.
        rewrite Hsucc. rewrite <- N.pred_sub, <- N.ones_equiv, N.land_ones.
        assert (Hm0 : (lim mod 2 ^ N.of_nat ((i + 1) * H) = 0)%N).
        { replace (N.of_nat (full_height p)) with (N.of_nat (full_height p - (i + 1) * H) + N.of_nat ((i + 1) * H))%N by lia.
          rewrite N.pow_add_r. apply N.mod_mul. apply N.pow_nonzero. discriminate. }
        rewrite Hm0. cbn [N.eqb negb]. fold idx. rewrite N.ltb_irrefl. reflexivity. }
      assert (Hk' : forall k i, i + k <= d -> forN k i (mt_layer_step p idx z z) v = Ok v).
      { induction k as [|k IHk]; intros i Hi; [reflexivity|]. rewrite forN_S, Hst by lia. rewrite bind_ok. apply IHk. lia. }
      apply Hk'. lia.
    + cbn [mv_ss mv_ws]. rewrite Hsucc. apply Hser. apply toByte_length.
  - (* xmss *)
    destruct (Hib4 eq_refl) as [Hi4 Hd]. unfold fast_xmss_core_sign. cbv zeta.
    rewrite Hde, bind_ok. replace (rd (sk_layout (toByte idx ib) sks prfk rt seed ext) 0 4) with (Ok (toByte idx ib)) by (rewrite <- Hrd, Hi4; reflexivity). rewrite bind_ok, ull_field by (lia || assumption); rewrite bind_ok.
    unfold shl1_ull at 1; destruct (Nat.ltb_spec (full_height p) 64) as [_|]; [|lia]; rewrite bind_ok.
    fold idx. rewrite N.leb_refl, N.ltb_irrefl.
    revert Hw; destruct (wr (sk_layout (toByte idx ib) sks prfk rt seed ext) 0 (repeat 255%N ib)) as [sk1| |]; intros Hw; try discriminate.
    cbn [bind] in Hw. rewrite bind_ok, Hw, bind_ok.
    destruct (Nat.eqb_spec (full_height p) 64) as [?|_]; [lia|]. cbn [andb]. rewrite Hzd, bind_ok. fold rs wz.
    assert (HhH : full_height p = H) by (rewrite (po_h p Hp), Hd; lia).
    assert (Hwz0 : wz = []) by (unfold wz; rewrite Hd; reflexivity).
    destruct rs as [|s [|? ?]] eqn:Ers; [| |]; try (unfold nstates in Lrs; rewrite Hd in Lrs; cbn in Lrs; lia).
    assert (Has : st_auth s = repeat 0%N (H * n)) by (apply (Hnth 0); lia).
    rewrite Hwz0 in *.
    destruct (single_output p Hf Hp HH z z z z Lz Lz Lz Lz idx (repeat 255%N ib) s (repeat 0%N (ser_bytes p)) sm m Hd (repeat_length _ _))
      as (ots & _ & Hout); try assumption; [rewrite Has; apply repeat_length|rewrite <- HhH; exact Hidx|].
    rewrite (Hout s (sk_layout (toByte lim ib) z z z z (concat (map (store_state p) [s]) ++ []))).
    + f_equal. f_equal. unfold sig_out. cbv zeta. fold R. rewrite Has, app_nil_r, HT, HL, Hd, Nat.mul_0_l, Nat.add_0_r.
      rewrite <- HhH, N.shiftr_div_pow2, N.div_small, N.mod_small by exact Hidx.
      reflexivity.
    + destruct (N.ltb_spec idx (2 ^ N.of_nat H - 1)) as [Hbad|_]; [unfold idx in Hbad; rewrite HhH in Hbad; lia|reflexivity].
    + rewrite Hsucc. apply Hser. apply toByte_length.
Qed.
End End_of_key.
