(** The chains of a signature of the reference core, and a simulation of the whole trace from public data. *)
From Verif Require Import Base Lib SpecRfc ModelUtils ModelParams ModelHash ModelWots ModelCommons ModelCore
  ProofUtils ProofHash ProofWots ProofCommons ProofTree ProofCore SpecParams SpecApi ProofParams ProofApi ModelXmss ModelLeak SpecLeak ProofLeak ProofLeak8.

Lemma ch_rdk {B} b o l x (k : bytes -> leak B) u : rd b o l = Ok x -> chains (trace (k x)) = u -> chains (trace (lbind (rd_l b o l) k)) = u.
Proof. intros H1 H2. exact (ch_skip (rd_l b o l) k x u H1 eq_refl H2). Qed.
Lemma ch_wrk {B} b o d x (k : bytes -> leak B) u : wr b o d = Ok x -> chains (trace (k x)) = u -> chains (trace (lbind (wr_l b o d) k)) = u.
Proof. intros H1 H2. exact (ch_skip (wr_l b o d) k x u H1 eq_refl H2). Qed.
Lemma ch_ok {A B} (c : res A) x (k : A -> leak B) u : c = Ok x -> chains (trace (k x)) = u -> chains (trace (lbind (silent c) k)) = u.
Proof. intros -> H. exact H. Qed.
Lemma ch_iff {A} (b : bool) (c d : leak A) u : chains (trace (if b then c else d)) = u -> chains (trace (lif b c d)) = u.
Proof. intros H. unfold lif. cbn [trace chains]. destruct b; exact H. Qed.
Lemma ch_for {S} (I : nat -> S -> Prop) (h : nat -> list (list event)) k : forall i (body : nat -> S -> leak S) s,
  I i s -> (forall j s, i <= j -> j < i + k -> I j s -> chains (trace (body j s)) = h j /\ exists s', outcome (body j s) = Ok s' /\ I (Datatypes.S j) s') ->
  chains (trace (lforN k i body s)) = concat (map h (seq i k)) /\ exists s', outcome (lforN k i body s) = Ok s' /\ I (i + k) s'.
Proof.
  induction k as [|k IH]; intros i body s Hi Hb; cbn [lforN seq map concat]; [rewrite Nat.add_0_r; split; [reflexivity|eexists; split; [reflexivity|exact Hi]]|].
  destruct (Hb i s ltac:(lia) ltac:(lia) Hi) as (H1 & s' & H2 & H3).
  destruct (IH (Datatypes.S i) body s' H3) as (H4 & s2 & H5 & H6). { intros j s2 A1 A2 A3. apply Hb; [lia|lia|exact A3]. }
  split.
  - eapply ch_bind; [exact H2| |exact H4]. exact H1.
  - exists s2. split; [|rewrite <- plus_n_Sm; exact H6]. rewrite (bind_oc _ _ s') by exact H2. exact H5.
Qed.

Section Refine.
Context {E : Env}.
Variable p : xmss_params.
Variable Hf : bytes -> bytes.
Hypothesis Hp : params_ok p.
Hypothesis HH : hash_total p Hf.
Notation P := (sp_of p Hf).
Notation n := (p_n p).
Notation th := (tree_height p).
Notation ib := (index_bytes p).
Notation wsig := (wots_sig_bytes p).
Notation layer_bytes := (layer_bytes p).
Notation sig_bytes_eq := (sig_bytes_eq p Hp).
Notation auth_path_chunked := (auth_path_chunked p Hf Hp HH).
Notation auth_path_length := (auth_path_length p Hf Hp).
Notation idx_leaf := (idx_leaf p Hf Hp).
Notation idx_step := (idx_step p Hf Hp).
Notation leaf_of_lt := (leaf_of_lt p Hf Hp).
Notation layer_msg_ok := (layer_msg_ok p Hf Hp HH).
Ltac rk L := eapply ch_rdk; [apply L|cbv beta].
Ltac wk L := eapply ch_wrk; [apply L|cbv beta].

Lemma body_chains idx ixb sks prfk rt seed extra sm smlen mlen m tail :
  length ixb = ib -> length sks = n -> length prfk = n -> length rt = n -> length seed = n ->
  length sm = sig_bytes p + mlen + length tail -> skipn (sig_bytes p) sm = m ++ tail -> length m = mlen ->
  let r := PRF P prfk (toByte idx 32) in
  chains (trace (ref_sign_body_l p idx (ixb ++ sks ++ prfk ++ rt ++ seed ++ extra) sm smlen mlen)) =
  concat (map (fun i => map (chain_trace P) (wots_digits P (layer_msg P sks seed (H_msg P r rt idx m) idx i))) (seq 0 (p_d p))).
Proof.
  intros Hix Hs1 Hs2 Hs3 Hs4 Hsm Htail Hm. cbv zeta. unfold ref_sign_body_l. cbv zeta.
  pose proof (po_th p Hp) as Hth. pose proof (po_pad p Hp) as Hpad. pose proof sig_bytes_eq as Hsb.
  set (r := PRF P prfk (toByte idx 32)).
  assert (Hr : length r = n) by apply (PRF_length p Hf HH).
  eapply ch_rdk; [apply (rd_at _ [] ixb (sks ++ prfk ++ rt ++ seed ++ extra)); reflexivity || lia|cbv beta].
  destruct (cut sm ib) as (m0 & y0 & Em & Hm0 & _); [lia|].
  destruct (cut y0 n) as (m1 & y1 & Em1 & Hm1 & _); [rewrite Em, app_length in Hsm; lia|].
  subst y0. rewrite Em.
  assert (Hy1 : length y1 = sig_bytes p - ib - n + mlen + length tail) by (rewrite Em, !app_length in Hsm; lia).
  assert (Hy1t : skipn (sig_bytes p - ib - n) y1 = m ++ tail).
  { rewrite <- Htail, Em. rewrite app_assoc, skipn_app, (skipn_all2 (m0 ++ m1)) by (rewrite app_length; lia).
    rewrite app_length. cbn [app]. f_equal. lia. }
  eapply ch_wrk; [apply (wr_at _ [] m0 (m1 ++ y1)); reflexivity || lia|cbv beta]. cbn [app].
  rewrite ull_to_bytes_spec.
  eapply ch_wrk; [apply (wr_at _ [] ixb (sks ++ prfk ++ rt ++ seed ++ extra)); rewrite ?toByte_length; reflexivity || lia|cbv beta]. cbn [app].
  set (ix' := toByte (u64 (idx + 1)) ib). assert (Hix' : length ix' = ib) by apply toByte_length.
  eapply ch_rdk; [apply (rd_at _ ix' sks (prfk ++ rt ++ seed ++ extra)); reflexivity || lia|cbv beta].
  eapply ch_rdk; [apply (rd_at _ (ix' ++ sks) prfk (rt ++ seed ++ extra)); rewrite <- ?app_assoc, ?app_length; reflexivity || lia|cbv beta].
  eapply ch_rdk; [apply (rd_at _ (ix' ++ sks ++ prfk) rt (seed ++ extra)); rewrite <- ?app_assoc, ?app_length; reflexivity || lia|cbv beta].
  eapply ch_rdk; [apply (rd_at _ (ix' ++ sks ++ prfk ++ rt) seed extra); rewrite <- ?app_assoc, ?app_length; reflexivity || lia|cbv beta].
  rewrite ull_to_bytes_spec.
  apply (ch_skip _ _ r); [rewrite lw_prf; apply (prf_spec p Hf HH); rewrite ?toByte_length; reflexivity || lia|apply nc_prf|cbv beta].
  eapply ch_wrk; [apply (wr_at _ ixb m1 y1); reflexivity || lia|cbv beta]. apply ch_iff.
  destruct (Nat.ltb_spec (sig_bytes p) (padding_len p + 3 * n)) as [?|_]; [lia|].
  set (sm1 := ixb ++ r ++ y1).
  assert (Hsm1l : length sm1 = sig_bytes p + mlen + length tail) by (unfold sm1; rewrite !app_length; lia).
  assert (Hsm1t : skipn (sig_bytes p) sm1 = m ++ tail).
  { unfold sm1. rewrite app_assoc, skipn_app, (skipn_all2 (ixb ++ r)) by (rewrite app_length; lia).
    rewrite app_length, <- Hy1t. cbn [app]. f_equal. lia. }
  assert (Hsm1p : firstn (ib + n) sm1 = ixb ++ r) by (unfold sm1; rewrite app_assoc; apply firstn_app_len; rewrite app_length; lia).
  destruct (hash_message_spec p Hf HH (fun b => rd b ib n) rt idx sm1 (sig_bytes p - padding_len p - 3 * n) mlen r m)
    as (sm2 & Hhm & Hsm2l & Hsm2p & Hsm2t).
  { intros b Hbl Hbp. rewrite Hsm1p in Hbp.
    apply (rd_at _ ixb r (skipn (ib + n) b)); [|lia|lia]. rewrite app_assoc, <- Hbp. symmetry. apply firstn_skipn. }
  { lia. } { exact Hr. } { lia. } { lia. }
  { replace (sig_bytes p - padding_len p - 3 * n + padding_len p + 3 * n) with (sig_bytes p) by lia.
    rewrite Hsm1t. symmetry. apply firstn_app_len. lia. }
  replace (firstn n rt) with rt in Hhm by (symmetry; apply firstn_all2; lia).
  set (M := H_msg P r rt idx m) in *.
  apply (ch_skip _ _ (M, sm2)); [rewrite (lw_hash_message p _ (fun b => rd b ib n)) by reflexivity; exact Hhm|apply nc_hm; intros; reflexivity|cbv beta iota zeta].
  replace (sig_bytes p - padding_len p - 3 * n + padding_len p + 3 * n) with (sig_bytes p) in Hsm2t by lia.
  eapply ch_ok; [unfold shl1_int; destruct (Nat.ltb_spec th 31) as [_|]; [reflexivity|lia]|cbv beta].
  assert (HMl : length M = n) by apply (Hf_length p Hf HH). assert (HMb : bytes_ok M) by apply (Hf_bytes p Hf HH).
  set (Inv := fun (i : nat) '((ix, s, off, rt', a) : N * bytes * nat * bytes * addr) =>
       ix = (idx / 2 ^ N.of_nat (th * i))%N /\ off = ib + n + i * layer_bytes /\
       rt' = layer_msg P sks seed M idx i /\ a3 a = 0%N /\ length s = sig_bytes p + mlen + length tail).
  match goal with |- chains (trace (lbind (lforN ?d0 0 ?b ?s0) _)) = _ =>
    destruct (ch_for Inv (fun i => map (chain_trace P) (wots_digits P (layer_msg P sks seed M idx i))) d0 0 b s0) as (G1 & s' & G2 & _) end.
  - unfold Inv. rewrite Nat.mul_0_r. change (2 ^ N.of_nat 0)%N with 1%N. rewrite N.div_1_r.
    split; [reflexivity|]. split; [lia|]. split; [reflexivity|]. split; [reflexivity|]. lia.
  - intros i [[[[ix s] off] rt'] a] _ Hi (-> & -> & -> & Ha3 & Hsl). cbv beta iota zeta.
    rewrite idx_leaf, idx_step.
    destruct (layer_msg_ok sks seed M idx i HMl HMb) as [Hml Hmb].
    set (T := tree_of P idx i). set (lf := leaf_of P idx i).
    assert (Hw : words (set_tree_addr (set_layer_addr a (N.of_nat i)) T) (N.of_nat i) T 0).
    { split; [reflexivity|]. split; [apply u32_shiftr_u64|]. split; [reflexivity|]. exact Ha3. }
    destruct (wots_sign_spec p Hf Hp HH seed (N.of_nat i) T lf Hs4 sks (layer_msg P sks seed M idx i)
       (set_ots_addr (set_tree_addr (set_layer_addr a (N.of_nat i)) T) lf) Hs1 Hmb Hml) as [a' [Hws Ha']].
    { split; [exact Hw|reflexivity]. }
    rewrite <- lw_wsign in Hws.
    assert (Hroom : ib + n + i * layer_bytes + layer_bytes <= sig_bytes p).
    { rewrite Hsb. assert (Datatypes.S i * layer_bytes <= p_d p * layer_bytes) by (apply Nat.mul_le_mono_r; lia). cbn [Nat.mul] in *. lia. }
    set (off := ib + n + i * layer_bytes) in *.
    destruct (cut s off) as (pre & z0 & Es & Hpre & Epre & _); [lia|].
    assert (Hz0l : length z0 = length s - off) by (rewrite Es, app_length; lia).
    destruct (cut z0 wsig) as (z1 & z2 & Ez & Hz1 & _); [unfold ProofCore.layer_bytes in Hroom; lia|].
    destruct (cut z2 (th * n)) as (z3 & z4 & Ez2 & Hz3 & _); [rewrite Ez, app_length in Hz0l; unfold ProofCore.layer_bytes in Hroom; lia|].
    subst z0 z2. rewrite Es.
    set (wsg := wots_sig P seed (N.of_nat i) T lf sks (layer_msg P sks seed M idx i)) in *.
    assert (Hwsg : length (concat wsg) = wsig).
    { rewrite (chunked_length n) by apply (wots_sig_chunked p Hf HH). unfold wsg.
      rewrite (wots_sig_length p Hf Hp), (po_wsig p Hp). reflexivity. }
    assert (Hwr : wr (pre ++ z1 ++ z3 ++ z4) off (concat wsg) = Ok (pre ++ concat wsg ++ z3 ++ z4)) by (apply (wr_at _ pre z1 (z3 ++ z4)); reflexivity || lia).
    destruct Ha' as [(Hw0 & Hw1 & Hw2 & Hw3) Hw4].
    assert (Hts : outcome (treehash_l p (pre ++ concat wsg ++ z3 ++ z4) (off + wsig) sks seed lf a') =
      Ok (root P sks seed (N.of_nat i) T, (pre ++ concat wsg) ++ concat (auth_path P sks seed (N.of_nat i) T lf) ++ z4)).
    { rewrite lw_treehash, (app_assoc pre). replace (off + wsig) with (length (pre ++ concat wsg)) by (rewrite app_length; lia).
      apply (treehash_spec p Hf Hp HH sks seed (N.of_nat i) T Hs1 Hs4); [apply leaf_of_lt|exact Hz3|split; [exact Hw0|split; [exact Hw1|exact Hw2]]]. }
    split.
    + rewrite <- (app_nil_r (map _ _)). eapply ch_bind; [exact Hws| |].
      * eapply ws_ch; [exact Hp|exact HH|exact Hml|exact Hmb|lia|exact Hws].
      * cbv beta iota. eapply ch_wrk; [exact Hwr|cbv beta]. eapply ch_skip; [exact Hts|apply nc_tr|]. reflexivity.
    + rewrite (bind_oc _ _ _ Hws). cbv beta iota. rewrite (bind_oc (wr_l _ _ _) _ _ Hwr). rewrite (bind_oc _ _ _ Hts). cbv beta iota. cbn [silent outcome].
      eexists. split; [reflexivity|]. unfold Inv. cbv beta iota.
      set (au := auth_path P sks seed (N.of_nat i) T lf) in *.
      assert (Haul : length (concat au) = th * n).
      { rewrite (chunked_length n) by apply auth_path_chunked. unfold au. now rewrite auth_path_length. }
      split.
      { unfold T, tree_of. rewrite (sp_th_of p Hf Hp). do 2 f_equal. lia. }
      split; [unfold ProofCore.layer_bytes in *; lia|]. split; [reflexivity|]. split; [exact Hw3|].
      rewrite !app_length, Haul. rewrite !app_length in Hz0l. lia.
  - rewrite <- (app_nil_r (concat _)). eapply ch_bind; [exact G2|exact G1|]. repeat (destruct s' as [s' ?]). reflexivity.
Qed.

Lemma sign_chains sks prfk rt seed extra idx sm m smlen : length sks = n -> length prfk = n -> length rt = n -> length seed = n ->
  (idx + 1 < 2 ^ N.of_nat (full_height p))%N -> sig_bytes p + length m <= length sm ->
  let r := PRF P prfk (toByte idx 32) in
  chains (trace (ref_xmssmt_core_sign_l p (sk_layout (toByte idx ib) sks prfk rt seed extra) sm smlen m)) =
  concat (map (fun i => map (chain_trace P) (wots_digits P (layer_msg P sks seed (H_msg P r rt idx m) idx i))) (seq 0 (p_d p))).
Proof.
  intros Hs1 Hs2 Hs3 Hs4 Hidx Hsm. cbv zeta. pose proof (po_ib_le p Hp) as [Hib8 Hibh]. pose proof (pow2_lt_256 _ _ Hibh) as Hp256. pose proof (po_h64 p Hp) as Hh.
  unfold ref_xmssmt_core_sign_l. cbv zeta.
  destruct (wr_spec sm (sig_bytes p) m Hsm) as (sm1 & Hwr & Hl & Hf1 & Hf2 & Hsk & _).
  eapply ch_wrk; [exact Hwr|cbv beta]. unfold sk_layout.
  eapply ch_rdk; [apply (rd_at _ [] (toByte idx ib) (sks ++ prfk ++ rt ++ seed ++ extra)); rewrite ?toByte_length; reflexivity|cbv beta].
  eapply ch_ok; [rewrite bytes_to_ull_spec by (rewrite ?toByte_length; auto using toByte_ok); reflexivity|cbv beta].
  rewrite os2ip_toByte, N.mod_small by lia.
  eapply ch_ok; [unfold shl1_ull; destruct (Nat.ltb_spec (full_height p) 64) as [_|]; [reflexivity|lia]|cbv beta]. apply ch_iff.
  destruct (N.leb_spec (2 ^ N.of_nat (full_height p) - 1) idx) as [?|_]; [lia|].
  apply (body_chains idx (toByte idx ib) sks prfk rt seed extra sm1 (sig_bytes p + length m) (length m) m (skipn (sig_bytes p + length m) sm));
    [apply toByte_length|exact Hs1|exact Hs2|exact Hs3|exact Hs4|rewrite skipn_length; lia| |reflexivity].
  rewrite <- (firstn_skipn (sig_bytes p + length m) sm1) at 1. rewrite Hf2, Hsk by lia.
  rewrite <- app_assoc. apply skipn_app_len. rewrite firstn_length. lia.
Qed.

(** the lengths, read from the signature *)
Lemma lengths_public sks prfk rt seed idx m : length sks = n -> length prfk = n -> length rt = n -> length seed = n ->
  (idx < 2 ^ N.of_nat (full_height p))%N ->
  let r := PRF P prfk (toByte idx 32) in
  chain_lengths_public P rt seed (mt_sign P sks prfk rt seed idx m) m =
  concat (map (fun i => wots_digits P (layer_msg P sks seed (H_msg P r rt idx m) idx i)) (seq 0 (p_d p))).
Proof.
  intros Hs1 Hs2 Hs3 Hs4 Hidx. cbv zeta. pose proof (po_ib_le p Hp) as [Hib8 Hibh]. pose proof (pow2_lt_256 _ _ Hibh) as Hp256.
  set (r := PRF P prfk (toByte idx 32)). assert (Hr : length r = n) by apply (PRF_length p Hf HH).
  set (M := H_msg P r rt idx m).
  assert (Esig : mt_sign P sks prfk rt seed idx m = toByte idx ib ++ r ++ concat (map (layer_sig P sks seed M idx) (seq 0 (p_d p)))).
  { unfold mt_sign. cbv zeta. replace (sp_ib P) with ib by exact (po_ib p Hp). reflexivity. }
  unfold chain_lengths_public. rewrite Esig. replace (sp_ib P) with ib by exact (po_ib p Hp). change (sp_n P) with n. change (sp_d P) with (p_d p).
  rewrite firstn_app_len by (now rewrite toByte_length). rewrite os2ip_toByte, N.mod_small by lia.
  rewrite (skipn_app_len (toByte idx ib)) by (now rewrite toByte_length). rewrite (firstn_app_len r) by (now rewrite Hr).
  rewrite app_assoc. rewrite (skipn_app_len (toByte idx ib ++ r)) by (rewrite app_length, toByte_length; lia). fold M. cbv zeta.
  f_equal. apply map_ext_in. intros i Hi. apply in_seq in Hi. f_equal.
  pose proof (mt_climb_layers p Hf Hp HH sks seed M idx (concat (map (layer_sig P sks seed M idx) (seq (0 + i) (p_d p - i)))) Hs1 Hs4 i 0) as Hc.
  cbn [layer_msg Nat.add] in Hc. rewrite <- Hc. f_equal.
  replace (p_d p) with (i + (p_d p - i)) at 1 by lia. rewrite seq_app, map_app, concat_app. reflexivity.
Qed.
End Refine.

(** ** Table rows *)
Lemma map_concat_map {A B C} (f : B -> C) (g : A -> list B) l : map f (concat (map g l)) = concat (map (fun i => map f (g i)) l).
Proof. induction l as [|a l IH]; [reflexivity|]. cbn [map concat]. now rewrite map_app, IH. Qed.
Section Rows.
Context {E : Env} (HE : env_ok E).
Variables (mt : bool) (r : row).
Hypothesis Hr : In r (rows mt).
Notation P := (row_sp r).
Notation rp := (row_params r (sk_ref r)).
Lemma row_chains idx a b rt seed sm smlen m :
  length a = r_n r -> length b = r_n r -> length rt = r_n r -> length seed = r_n r ->
  (idx + 1 < 2 ^ N.of_nat (r_h r))%N -> sig_size r + length m <= length sm ->
  chains (trace (ref_sign_seen mt (secret_key r idx a b rt seed) sm smlen m)) =
  map (chain_trace P) (chain_lengths_public P rt seed (mt_sign P a b rt seed idx m) m).
Proof.
  intros Ha Hb Hc Hd Hi Hm. unfold ref_sign_seen, sign_wrapper_l, secret_key.
  pose proof (parse_accept_ref mt r uninit_params Hr) as Hpo. unfold ProofParams.parse_oid in Hpo.
  eapply ch_ok; [apply (row_oid_bytes mt r _ Hr)|cbv beta].
  eapply ch_ok; [destruct mt; exact Hpo|cbv beta iota].
  change XMSS_OID_LEN with 4. rewrite skipn_app_len by (now rewrite toByte_length).
  pose proof (sign_chains rp (row_hash r) (p_ok mt r Hr) (p_hash HE mt r Hr) a b rt seed [] idx sm m smlen) as H1.
  pose proof (lengths_public rp (row_hash r) (p_ok mt r Hr) (p_hash HE mt r Hr) a b rt seed idx m) as H2.
  cbv zeta in H1, H2. rewrite row_n, p_ib, p_sig, p_h, sp_of_row in H1. rewrite row_n, p_h, sp_of_row in H2.
  rewrite H2 by (assumption || lia). rewrite map_concat_map. rewrite <- H1 by assumption. clear H1 H2.
  rewrite layout_sk. rewrite <- (app_nil_r (chains (trace (ref_xmssmt_core_sign_l _ _ _ _ _)))).
  destruct (outcome (ref_xmssmt_core_sign_l rp (toByte idx (idx_size r) ++ a ++ b ++ rt ++ seed) sm smlen m)) as [o| |] eqn:Eo.
  - eapply ch_bind; [exact Eo|reflexivity|reflexivity].
  - unfold lbind. rewrite Eo. cbn [trace]. now rewrite app_nil_r.
  - unfold lbind. rewrite Eo. cbn [trace]. now rewrite app_nil_r.
Qed.
End Rows.
