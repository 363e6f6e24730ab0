(** test/vectors.c prints what SpecVectors says. *)
From Verif Require Import Base Lib ModelUtils ModelParams ModelFips202 ModelHash ModelWots ModelCommons ModelCore ModelXmss ModelUi ModelVectors
  SpecRfc SpecFips202 SpecParams SpecApi SpecVectors ProofUtils ProofHash ProofWots ProofWotsAny ProofCommons ProofCore ProofShake ProofParams ProofApi ProofUi ProofMain ProofUi2 ProofVectors.
From Coq Require Import Ascii String.

(** ** Strings *)
Lemma append_nil s : (s ++ "")%string = s.
Proof. induction s as [|c s IH]; [reflexivity|]. cbn [String.append]. now rewrite IH. Qed.
Lemma append_assoc s t u : ((s ++ t) ++ u)%string = (s ++ t ++ u)%string.
Proof. induction s as [|c s IH]; [reflexivity|]. cbn [String.append]. now rewrite IH. Qed.
Lemma cat_cons x l : String.concat "" (x :: l) = (x ++ String.concat "" l)%string.
Proof. destruct l as [|y l]; [symmetry; apply append_nil|reflexivity]. Qed.
Lemma cat_app a b : String.concat "" (a ++ b) = (String.concat "" a ++ String.concat "" b)%string.
Proof. induction a as [|x a IH]; [reflexivity|]. cbn [app]. rewrite !cat_cons, IH. symmetry. apply append_assoc. Qed.
Lemma hex_digit_hexd v : (v < 16)%N -> hex_digit v = hexd v.
Proof.
  intros Hv. assert (Hi : In v (map N.of_nat (seq 0 16))).
  { replace v with (N.of_nat (N.to_nat v)) by lia. apply in_map, in_seq. lia. }
  cbn [seq map] in Hi. repeat (destruct Hi as [<-|Hi]; [reflexivity|]). destruct Hi.
Qed.
Lemma print_hex_spec buf : bytes_ok buf -> print_hex buf (List.length buf) = Ok (hex buf).
Proof.
  intros Hb. unfold print_hex.
  match goal with |- forN ?k 0 ?body ?s0 = _ =>
    destruct (forN_inv (fun i out => out = hex (firstn i buf)) k 0 body s0) as (out & He & Ho) end.
  - intros i out Hi Ho. rewrite (rdc_ok buf i 0%N) by lia. rewrite bind_ok. eexists. split; [reflexivity|]. rewrite Ho.
    rewrite (firstn_S_nth 0%N buf i) by lia. unfold hex. rewrite map_app, cat_app. cbn [map String.concat]. f_equal.
    assert (Hx : (nth i buf 0 < 256)%N) by (apply (proj1 (Forall_forall _ _) Hb), nth_In; lia).
    rewrite !hex_digit_hexd.
    + f_equal. f_equal. change 15%N with (N.ones 4). apply N.land_ones.
    + change 15%N with (N.ones 4). rewrite N.land_ones. apply N.mod_lt. discriminate.
    + apply N.div_lt_upper_bound; [discriminate|exact Hx].
  - reflexivity.
  - rewrite He. cbn [Nat.add] in Ho. rewrite Ho, firstn_all. reflexivity.
Qed.
Lemma print_hash_spec buf len x : rd buf 0 len = Ok x -> print_hash buf len = Ok (fingerprint x).
Proof.
  intros Hx. unfold print_hash. rewrite Hx, bind_ok.
  destruct (shake_b2h _ _ 10 (shake128_fips 10 x)) as (-> & Hl & Hb). rewrite bind_ok.
  unfold fingerprint. change (8 * 10)%nat with 80%nat in *. etransitivity; [|apply print_hex_spec; exact Hb]. now rewrite Hl.
Qed.

(** ** WOTS+ on any address *)
Section Wots.
Context {E : Env}.
Variable p : xmss_params.
Variable Hf : bytes -> bytes.
Hypothesis Hp : params_ok p.
Hypothesis HH : hash_total p Hf.
Notation P := (sp_of p Hf).
Variables (seed : bytes) (a : addr).
Notation X f := (f (a0 a) (a1 a) (a2 a) (a3 a) (a4 a)).
Lemma AB_adr c h k : X AB c h (N.of_nat k) = adr (pre a) c h k.
Proof. unfold AB, addr_to_bytes, adr, pre. cbn [a0 a1 a2 a3 a4 a5 a6 a7]. rewrite !ull_to_bytes_spec, !toByte_u32, <- !app_assoc. reflexivity. Qed.
Lemma chainA_at x c i s : X (chainA p Hf seed) x c i s = chain_at P (pre a) seed x c i s.
Proof. induction s as [|s IH]; [reflexivity|]. cbn [chainA chain_at]. rewrite IH. change 0%N with (N.of_nat 0). change 1%N with (N.of_nat 1). rewrite !AB_adr. reflexivity. Qed.
Lemma skA_at sks c : X (skA p Hf seed) sks c = wots_sk_at P (pre a) seed sks c.
Proof. unfold skA, wots_sk_at. change 0%N with (N.of_nat 0). rewrite AB_adr. reflexivity. Qed.
Lemma pkA_at sks : X (pkA p Hf seed) sks = wots_pk_at P (pre a) seed sks.
Proof. unfold pkA, wots_pk_at. apply map_ext. intros c. rewrite chainA_at, skA_at. reflexivity. Qed.
Lemma sigA_at sks M : X (sigA p Hf seed) sks M = wots_sig_at P (pre a) seed sks M.
Proof. unfold sigA, wots_sig_at. apply map_ext. intros c. rewrite chainA_at, skA_at. reflexivity. Qed.
Hypothesis Hseed : List.length seed = p_n p.
Lemma pkA_chunked sks : chunked (p_n p) (X (pkA p Hf seed) sks).
Proof. apply chunked_map_seq. intros i _. apply (chain_length p Hf HH), (sk_length p Hf HH). Qed.
Lemma pkA_length sks : List.length (X (pkA p Hf seed) sks) = wots_len p.
Proof. unfold pkA. rewrite map_length, seq_length. apply (len_P p Hf Hp). Qed.
End Wots.
Lemma same_pre a b : same (a0 a) (a1 a) (a2 a) (a3 a) (a4 a) b -> pre b = pre a.
Proof. intros (H0 & H1 & H2 & H3 & H4). unfold pre. now rewrite H0, H1, H2, H3, H4. Qed.

Lemma ramp_u8 s k : s * k <= 256 -> map (fun i => u8 (N.of_nat (s * i))) (seq 0 k) = ramp s k.
Proof. intros Hk. apply map_ext_in. intros i Hi. apply in_seq in Hi. unfold u8. apply N.mod_small. nia. Qed.
Lemma ramp_ok s k : s * k <= 256 -> bytes_ok (ramp s k).
Proof. intros Hk. apply Forall_forall. intros x Hx. apply in_map_iff in Hx. destruct Hx as (i & <- & Hi). apply in_seq in Hi. nia. Qed.
Lemma ramp_length s k : List.length (ramp s k) = k.
Proof. unfold ramp. now rewrite map_length, seq_length. Qed.

Section Lines.
Context {E : Env} (HE : env_ok E).
Lemma wots_line_spec r : In r (rows false) -> r_n r <= 64 -> print_int (r_oid r) = (dec (N.to_nat (r_oid r)) ++ " ")%string -> vectors_wots (r_oid r) = Ok (wots_line r).
Proof.
  intros Hr Hn Hi. unfold vectors_wots. pose proof (parse_accept_ref false r uninit_params Hr) as Hpo.
  change (ProofParams.parse_oid false) with xmss_parse_oid in Hpo. rewrite Hpo, bind_ok. cbv zeta.
  pose proof (p_ok false r Hr) as Hp. pose proof (p_hash HE false r Hr) as HH. set (p := row_params r (sk_ref r)) in *. set (Hf := row_hash r) in *.
  assert (Ek : p_n p = r_n r) by apply row_n.
  assert (E3 : map (fun i => u8 (3 * N.of_nat i)) (seq 0 (p_n p)) = ramp 3 (p_n p)).
  { rewrite <- ramp_u8 by lia. apply map_ext. intros i. f_equal. lia. }
  assert (E2 : map (fun i => u8 (2 * N.of_nat i)) (seq 0 (p_n p)) = ramp 2 (p_n p)).
  { rewrite <- ramp_u8 by lia. apply map_ext. intros i. f_equal. lia. }
  assert (E1 : map (fun i => u8 (N.of_nat i)) (seq 0 (p_n p)) = ramp 1 (p_n p)).
  { rewrite <- ramp_u8 by lia. apply map_ext. intros i. f_equal. lia. }
  rewrite E1, E2, E3. set (A1 := mkAddr (u32 (500000000 * 0)) _ _ _ _ _ _ _). set (A2 := mkAddr (u32 (400000000 * 0)) _ _ _ _ _ _ _).
  assert (W1 : pre A1 = flat_map (fun i => toByte (500000000 * i) 4) [0; 1; 2; 3; 4]%N) by reflexivity.
  assert (W2 : pre A2 = flat_map (fun i => toByte (400000000 * i) 4) [0; 1; 2; 3; 4]%N) by reflexivity.
  pose proof (ramp_length 2 (p_n p)) as L2. pose proof (ramp_length 1 (p_n p)) as L1.
  destruct (wots_pkgen_any p Hf Hp HH (ramp 2 (p_n p)) _ _ _ _ _ L2 (ramp 1 (p_n p)) A1 L1 ltac:(repeat split)) as (B1 & R1 & S1). rewrite R1, bind_ok.
  destruct (wots_sign_any p Hf Hp HH (ramp 2 (p_n p)) _ _ _ _ _ L2 (ramp 1 (p_n p)) (ramp 3 (p_n p)) B1 L1 ltac:(apply ramp_ok; lia) (ramp_length _ _) S1) as (C1 & R2 & S2). rewrite R2, bind_ok.
  assert (Q : forall W nodes, List.length nodes = wots_len p -> chunked (p_n p) nodes -> print_hash (List.concat nodes) (wots_sig_bytes p) = Ok (fingerprint (List.concat nodes)) /\ W = W :> bytes).
  { intros W nodes Hl Hc. split; [|reflexivity]. apply print_hash_spec. apply rd_all; [reflexivity|]. rewrite (chunked_length (p_n p)) by exact Hc. rewrite Hl. exact (po_wsig p Hp). }
  rewrite (proj1 (Q [] _ (pkA_length p Hf Hp (ramp 2 (p_n p)) A1 _) (pkA_chunked p Hf HH (ramp 2 (p_n p)) A1 _))), bind_ok.
  rewrite (proj1 (Q [] _ (sigA_length p Hf Hp (ramp 2 (p_n p)) _ _ _ _ _ _ _) (sigA_chunked p Hf HH (ramp 2 (p_n p)) _ _ _ _ _ _ _))), bind_ok.
  unfold gen_leaf_wots.
  destruct (wots_pkgen_any p Hf Hp HH (ramp 2 (p_n p)) _ _ _ _ _ L2 (ramp 1 (p_n p)) A2 L1 ltac:(repeat split)) as (B2 & R3 & S3). rewrite R3, bind_ok.
  pose proof (same_pre A1 C1 S2) as Epre.
  destruct (l_tree_at p Hf Hp HH (pre A1) (ramp 2 (p_n p)) _ C1 L2 (pkA_chunked p Hf HH (ramp 2 (p_n p)) A2 (ramp 1 (p_n p))) (pkA_length p Hf Hp (ramp 2 (p_n p)) A2 _) Epre) as (D1 & h' & R4 & _).
  rewrite R4, !bind_ok.
  erewrite print_hash_spec.
  2:{ apply rd_all; [reflexivity|]. symmetry. apply (lta_n p Hf HH). - apply (pkA_chunked p Hf HH). - rewrite (pkA_length p Hf Hp). pose proof (len_pos p Hp). pose proof (po_len p Hp). lia. }
  rewrite bind_ok. f_equal. rewrite !pkA_at, !sigA_at, W1, W2. unfold wots_line. cbv zeta. rewrite Hi. subst p Hf. rewrite sp_of_row, Ek. rewrite !append_assoc. reflexivity.
Qed.

Lemma key_line_spec mt r : In r (rows mt) -> r_mt r = mt -> r_n r <= 64 -> 1 < r_h r < 32 -> print_int (r_oid r) = (dec (N.to_nat (r_oid r)) ++ " ")%string -> vectors_xmss (r_oid r) mt = Ok (key_line r).
Proof.
  intros Hr Hmt Hn Hh Hi. unfold vectors_xmss. pose proof (parse_accept_ref mt r uninit_params Hr) as Hpo.
  change (ui_parse_oid mt) with (ProofParams.parse_oid mt). rewrite Hpo, bind_ok. cbv zeta.
  pose proof (p_ok mt r Hr) as Hp. pose proof (p_hash HE mt r Hr) as HH.
  pose proof (row_pk_size r (sk_ref r)) as Epk. pose proof (p_sk r) as Esk. pose proof (p_ib r) as Eib. pose proof (p_h r) as Eh. pose proof (p_sig r) as Esig.
  assert (ESP : sp_of (row_params r (sk_ref r)) (row_hash r) = row_sp r) by apply sp_of_row.
  set (p := row_params r (sk_ref r)) in *. set (Hf := row_hash r) in *.
  assert (Ek : p_n p = r_n r) by apply row_n.
  set (rnd := fun i => u8 (N.of_nat i)).
  assert (U : forall k, List.length (uninit k) = k) by (intros k; unfold uninit; now rewrite map_length, seq_length).
  pose proof (keypair_spec p Hf Hp HH (uninit (pk_bytes p)) (uninit (ModelParams.sk_bytes p)) rnd) as K. cbv zeta in K.
  unfold ref_xmssmt_core_keypair in K. cbv zeta in K. change (rand_take rnd 0 (3 * p_n p)) with (map rnd (seq 0 (3 * p_n p))) in K.
  rewrite !U in K. specialize (K ltac:(rewrite Epk, Ek; unfold pk_size; lia) ltac:(rewrite Esk, Eib, Ek; unfold sk_size; lia)).
  destruct (xmssmt_core_seed_keypair p (uninit (pk_bytes p)) (uninit (ModelParams.sk_bytes p)) (map rnd (seq 0 (3 * p_n p)))) as [[[z pk] sk]| |]; try discriminate K.
  rewrite bind_ok in K. rewrite bind_ok.
  assert (T1 : skipn (2 * p_n p) (uninit (pk_bytes p)) = []) by (apply skipn_all2; rewrite U, Epk, Ek; unfold pk_size; lia).
  assert (T2 : skipn (index_bytes p + 4 * p_n p) (uninit (ModelParams.sk_bytes p)) = []) by (apply skipn_all2; rewrite U, Esk, Eib, Ek; unfold sk_size; lia).
  rewrite T1, T2, ESP, !app_nil_r in K.
  assert (Er : ramp 1 (3 * r_n r) = rand_take rnd 0 (p_n p) ++ rand_take rnd (p_n p) (p_n p) ++ rand_take rnd (2 * p_n p) (p_n p)).
  { rewrite Ek. replace (2 * r_n r) with (r_n r + r_n r) by lia. replace (3 * r_n r) with (r_n r + (r_n r + r_n r)) by lia. rewrite <- (ramp_u8 1) by lia.
    change (rand_take rnd 0 (r_n r)) with (rand_take rnd 0 (r_n r)). rewrite <- (rand_take_app rnd (0 + r_n r)), <- rand_take_app. unfold rand_take, rnd. apply map_ext. intros i. f_equal. lia. }
  set (sks := rand_take rnd 0 (p_n p)) in *. set (prfk := rand_take rnd (p_n p) (p_n p)) in *. set (seed := rand_take rnd (2 * p_n p) (p_n p)) in *.
  assert (La : List.length sks = p_n p) by apply rand_take_length. assert (Lb : List.length prfk = p_n p) by apply rand_take_length. assert (Ld : List.length seed = p_n p) by apply rand_take_length.
  assert (F1 : firstn (r_n r) (ramp 1 (3 * r_n r)) = sks) by (rewrite Er; apply firstn_app_len; lia).
  assert (F2 : firstn (r_n r) (skipn (r_n r) (ramp 1 (3 * r_n r))) = prfk) by (rewrite Er, skipn_app_len by lia; apply firstn_app_len; lia).
  assert (F3 : skipn (2 * r_n r) (ramp 1 (3 * r_n r)) = seed) by (rewrite Er, app_assoc; apply skipn_app_len; rewrite app_length; lia).
  set (rt := mt_root (row_sp r) sks seed) in *.
  assert (Lr : List.length rt = p_n p) by (rewrite Ek; apply (root_facts HE mt r sks seed Hr)).
  assert (Ep : pk = rt ++ seed) by congruence. assert (Es : sk = repeat 0%N (index_bytes p) ++ sks ++ prfk ++ rt ++ seed) by congruence. clear K. subst pk sk.
  rewrite Eh. destruct (Nat.eqb_spec (r_h r) 0) as [Hx|_]; [lia|]. destruct (Nat.leb_spec 32 (r_h r)) as [Hx|_]; [lia|]. cbn [orb].
  rewrite (wr_at _ [] (repeat 0%N (index_bytes p)) (sks ++ prfk ++ rt ++ seed)) by (rewrite ?repeat_length, ?ull_to_bytes_spec, ?toByte_length; reflexivity).
  rewrite bind_ok, ull_to_bytes_spec. cbn [app].
  set (idx := (2 ^ N.of_nat (r_h r - 1))%N).
  assert (Hidx : (idx + 1 < 2 ^ N.of_nat (full_height p))%N).
  { rewrite Eh. unfold idx. replace (N.of_nat (r_h r)) with (N.succ (N.of_nat (r_h r - 1))) by lia. rewrite N.pow_succ_r'.
    assert (Hq : (2 ^ 1 <= 2 ^ N.of_nat (r_h r - 1))%N) by (apply N.pow_le_mono_r; [discriminate|lia]). change (2 ^ 1)%N with 2%N in Hq. lia. }
  pose proof (sign_spec p Hf Hp HH sks prfk rt seed [] La Lb Lr Ld idx (uninit (sig_bytes p + 1)) [37%N] 0 Hidx ltac:(rewrite U; cbn [List.length]; lia)) as G.
  unfold sk_layout in G. rewrite app_nil_r in G.
  assert (G' : (if mt then ref_xmssmt_core_sign else ref_xmss_core_sign) p (toByte idx (index_bytes p) ++ sks ++ prfk ++ rt ++ seed) (uninit (sig_bytes p + 1)) 0 [37%N] = Ok (mkSign 0 (toByte (idx + 1) (index_bytes p) ++ sks ++ prfk ++ rt ++ seed) (mt_sign (row_sp r) sks prfk rt seed idx [37%N] ++ [37%N]) (sig_bytes p + 1))).
  { rewrite skipn_all2 in G by (rewrite U; cbn [List.length]; lia). rewrite ESP, !app_nil_r in G. destruct mt; exact G. }
  rewrite G', bind_ok. cbn [so_sm].
  rewrite (print_hash_spec _ _ (rt ++ seed)) by (apply rd_all; [reflexivity|]; rewrite app_length, Epk; unfold pk_size; lia). rewrite bind_ok.
  assert (Lm : List.length (mt_sign (row_sp r) sks prfk rt seed idx [37%N]) = sig_bytes p) by (rewrite Esig; apply (mt_sign_len HE mt r Hr)).
  rewrite (print_hash_spec _ _ (mt_sign (row_sp r) sks prfk rt seed idx [37%N])) by (rewrite (rd_at _ [] (mt_sign (row_sp r) sks prfk rt seed idx [37%N]) [37%N]); [reflexivity|reflexivity|reflexivity|lia]). rewrite bind_ok. f_equal.
  unfold key_line. cbv zeta. rewrite Hmt, Hi, F1, F2, F3. fold rt. replace (2 ^ (N.of_nat (r_h r) - 1))%N with idx by (unfold idx; f_equal; lia).
  rewrite !append_assoc. reflexivity.
Qed.

Lemma vectors_spec : vectors_main = Ok vectors.
Proof.
  assert (A : forall r, In r h10 -> vectors_wots (r_oid r) = Ok (wots_line r) /\ vectors_xmss (r_oid r) false = Ok (key_line r)).
  { intros r Hr. assert (Hin : In r (rows false)) by (apply filter_In in Hr; tauto).
    assert (Hx : r_mt r = false /\ r_n r <= 64 /\ 1 < r_h r < 32 /\ print_int (r_oid r) = (dec (N.to_nat (r_oid r)) ++ " ")%string).
    { clear Hin. vm_compute in Hr. repeat (destruct Hr as [<-|Hr]; [vm_compute; repeat split; repeat constructor|]). destruct Hr. }
    destruct Hx as (H1 & H2 & H3 & H4). split; [apply wots_line_spec|apply key_line_spec]; assumption. }
  assert (B : forall r, In r h20_4 -> vectors_xmss (r_oid r) true = Ok (key_line r)).
  { intros r Hr. assert (Hin : In r (rows true)) by (apply filter_In in Hr; tauto).
    assert (Hx : r_mt r = true /\ r_n r <= 64 /\ 1 < r_h r < 32 /\ print_int (r_oid r) = (dec (N.to_nat (r_oid r)) ++ " ")%string).
    { clear Hin. vm_compute in Hr. repeat (destruct Hr as [<-|Hr]; [vm_compute; repeat split; repeat constructor|]). destruct Hr. }
    destruct Hx as (H1 & H2 & H3 & H4). apply key_line_spec; assumption. }
  assert (Loop : forall (f : N -> res string) (g : row -> string) l out,
    (forall r, In r l -> f (r_oid r) = Ok (g r)) -> forall k from step, map r_oid l = map (fun i => (from + step * N.of_nat i)%N) (seq k (List.length l)) ->
    forN (List.length l) k (fun i out => let* x := f (from + step * N.of_nat i)%N in Ok (out ++ x)%string) out = Ok (out ++ String.concat "" (map g l))%string).
  { intros f g l. induction l as [|r l IH]; intros out Hf k from step Ho.
    - cbn [List.length forN map String.concat]. now rewrite append_nil.
    - cbn [List.length seq map] in Ho. cbn [List.length forN].
      assert (Ho1 : r_oid r = (from + step * N.of_nat k)%N) by congruence. assert (Ho2 : map r_oid l = map (fun i => (from + step * N.of_nat i)%N) (seq (S k) (List.length l))) by congruence.
      rewrite <- Ho1, (Hf r (or_introl eq_refl)), !bind_ok. rewrite (IH _ (fun q Hq => Hf q (or_intror Hq)) (S k) from step Ho2).
      cbn [map]. rewrite cat_cons. now rewrite append_assoc. }
  unfold vectors_main.
  assert (Z1 : List.length h10 = 7) by reflexivity. assert (Z2 : List.length h20_4 = 7) by reflexivity.
  pose proof (Loop vectors_wots wots_line h10 ""%string (fun r Hr => proj1 (A r Hr)) 0 1%N 3%N eq_refl) as Y1. rewrite Z1 in Y1.
  pose proof (Loop (fun o => vectors_xmss o true) key_line h20_4) as Y2. rewrite Z2 in Y2.
  pose proof (Loop (fun o => vectors_xmss o false) key_line h10) as Y3. rewrite Z1 in Y3.
  rewrite Y1, bind_ok. rewrite (Y2 _ B 0 2%N 8%N eq_refl), bind_ok. rewrite (Y3 _ (fun r Hr => proj2 (A r Hr)) 0 1%N 3%N eq_refl).
  unfold vectors. rewrite !cat_app. rewrite append_assoc. reflexivity.
Qed.

(** On RFC 8391 addresses the definitions of SpecVectors are those of SpecRfc. *)
Lemma leaf_at_rfc P sks seed L T o : leaf_at P (toByte L 4 ++ toByte T 8 ++ toByte 1 4 ++ toByte o 4) (toByte L 4 ++ toByte T 8 ++ toByte 0 4 ++ toByte o 4) sks seed = leaf P sks seed L T o.
Proof.
  set (WL := toByte L 4 ++ toByte T 8 ++ toByte 1 4 ++ toByte o 4). set (WO := toByte L 4 ++ toByte T 8 ++ toByte 0 4 ++ toByte o 4).
  assert (HO : forall c h k, adr WO c h k = adrs_bytes (OTS L T o (N.of_nat c) (N.of_nat h) (N.of_nat k))) by (intros c h k; unfold adr, WO, adrs_bytes; now rewrite <- !app_assoc).
  assert (HL : forall c h k, adr WL c h k = adrs_bytes (LTREE L T o (N.of_nat c) (N.of_nat h) (N.of_nat k))) by (intros c h k; unfold adr, WL, adrs_bytes; now rewrite <- !app_assoc).
  assert (Hc : forall X c i s, chain_at P WO seed X c i s = chain P seed L T o X c i s).
  { intros X c i s. induction s as [|s IH]; [reflexivity|]. cbn [chain_at chain]. rewrite !HO, IH. reflexivity. }
  assert (Hpk : wots_pk_at P WO seed sks = wots_pk P seed L T o sks).
  { unfold wots_pk_at, wots_pk. apply map_ext. intros c. rewrite Hc. unfold wots_sk_at, wots_sk. rewrite HO. reflexivity. }
  assert (Hl : forall h nodes i, ltree_level_at P WL seed h i nodes = ltree_level P seed L T o h i nodes).
  { intros h. fix IH 1. intros [|x [|y rest]] i; [reflexivity|reflexivity|]. cbn [ltree_level_at ltree_level]. rewrite IH.
    unfold rand_hash_at, RAND_HASH. rewrite !HL. reflexivity. }
  assert (Ht : forall k h nodes, ltree_at P WL seed k h nodes = ltree P seed L T o k h nodes).
  { induction k as [|k IH]; intros h nodes; cbn [ltree_at ltree]; [reflexivity|]. destruct (List.length nodes <=? 1); [reflexivity|]. rewrite Hl. apply IH. }
  unfold leaf_at, leaf. rewrite Hpk. apply Ht.
Qed.
End Lines.
