(** The failure at index 2^20 of the fast multi-tree core, shown at the API. *)
From Verif Require Import Base ModelUtils ModelParams ModelCommons ModelCore ModelCoreFast ModelXmss.
From Verif Require Import SpecRfc SpecFips202 SpecParams SpecApi SpecComp SpecFast Lib ProofUtils ProofHash ProofCore ProofParams ProofApi ProofHistory ProofMain ProofMain2.
From Verif Require Import ProofSched ProofBds1 ProofFast1 ProofFast2 ProofFast3 ProofFast4 ProofFast5 ProofFast6 ProofFast7 ProofTree ProofToy ProofToy2 ProofMt1 ProofMt2 ProofMt4 ProofMt5 ProofMt6 ProofMt7 ProofMt8 ProofMt9.

Section Gen.
Context {E : Env}.
Hypothesis HE : env_ok E.
Variable r : row.
Hypothesis Hr : In r (rows true).
Hypothesis Hmany : ~ few_layers r.
Notation p := (row_params r (sk_fast r)).
Notation n := (r_n r).
Notation J := (fast_limit r).
Lemma blim : (J + 1 < 2 ^ N.of_nat (r_h r))%N.
Proof.
  destruct (many_facts r Hr Hmany) as (A1 & A2 & A3). rewrite A3, (mr_h r Hr), A1.
  apply N.lt_le_trans with (2 ^ 25)%N; [reflexivity|]. apply N.pow_le_mono_r; [discriminate|]. clear - A2. lia.
Qed.
Lemma blen sks seed i ext : length sks = n -> length seed = n -> goodb r sks seed i ext -> length ext = ser_bytes p.
Proof.
  intros L1 L2 [[_ Hg]|[_ (ss & ws & Hb & ->)]]; [exact (mlen HE r Hr sks seed i ext L1 L2 Hg)|].
  apply (ser_len true r Hr). exists ss, ws. split; [reflexivity|]. split; [|apply Hb].
  rewrite <- (row_n r (sk_fast r)) in L1, L2.
  exact (broken_ok p (row_hash r) (fp_ok true r Hr) (fp_hash HE true r Hr) (fp_kH true r Hr) (mr_H3 r Hr) (mr_HU r Hr) sks seed L1 L2 i ss ws Hb).
Qed.
Lemma bkey pk sk rnd : length pk = 4 + pk_size r -> length sk = 4 + fast_size r -> bytes_ok sk ->
  let sks := map rnd (seq 0 n) in let prfk := map rnd (seq n n) in let seed := map rnd (seq (2 * n) n) in
  let rt := mt_root (row_sp r) sks seed in
  exists ext, goodb r sks seed 0%N ext /\
  keypair true fast_core pk sk (r_oid r) rnd = Ok (0%Z, public_key r rt seed, secret_key r 0 sks prfk rt seed ++ ext).
Proof.
  intros A B C. cbv zeta. destruct (mkey HE r Hr pk sk rnd A B C) as (ext & Hg & K). exists ext. split; [|exact K]. now apply goodb_0.
Qed.
End Gen.

Section Step.
Local Existing Instance step_env.
Variable r : row.
Hypothesis Hr : In r (rows true).
Hypothesis Hmany : ~ few_layers r.
Hypothesis Hfn : r_fn r = SHA2.
Hypothesis Hn : r_n r = 32.
Notation p := (row_params r (sk_fast r)).
Notation P := (@row_sp step_env r).
Notation J := (fast_limit r).
Let HE := step_env_ok.

Definition au_bad (G : bytes) (i : nat) : list bytes :=
  if i =? 3 then map (fun j => w (nd j)) (seq 0 4) ++ [G] else map (fun j => w (nd j)) (seq 0 5).
Lemma au_ok G : length G = 32 -> forall i, length (au_bad G i) = sp_th P /\ Forall (fun x => length x = 32) (au_bad G i).
Proof.
  intros LG i. destruct (many_facts r Hr Hmany) as (A1 & _). rewrite A1. unfold au_bad. destruct (i =? 3); (split; [reflexivity|]); repeat constructor. exact LG.
Qed.
Lemma s_layers sks prfk rt seed m G : length G = 32 ->
  bad_layers r sks prfk rt seed m G = concat (map (lay r mb_bad (au_bad G)) (seq 0 (r_d r))).
Proof.
  intros LG. destruct (many_facts r Hr Hmany) as (A1 & A2 & A3). unfold bad_layers. f_equal. apply map_ext_in. intros i Hi. apply in_seq in Hi.
  assert (U2 : (tree_height p - bds_k p) / 2 = 2) by (rewrite (mr_U r), A1; reflexivity).
  assert (Ht : tree_height p = 5) by (rewrite (fp_th r); exact A1).
  unfold blayer, bauth, bad_sig, half. rewrite !sp_of_row, U2, Ht. rewrite s_Hmsg by assumption. cbn [Nat.add Nat.sub].
  assert (Em : forall k, 0 < k -> layer_msg P sks seed (w 0) J k = w 176).
  { intros [|k] Hk; [clear - Hk; lia|]. cbn [layer_msg]. unfold root. rewrite A1, (s_node r Hfn Hn), nd_5. reflexivity. }
  assert (Ea : forall L T l, auth_path P sks seed L T l = map (fun j => w (nd j)) (seq 0 5)).
  { intros. unfold auth_path. rewrite A1. apply map_ext. intros j. apply (s_node r Hfn Hn). }
  unfold lay, mb_bad, au_bad. destruct (Nat.eqb_spec i 3) as [->|H3].
  - cbn [Nat.eqb]. rewrite Em by (clear; lia). rewrite (s_sig r Hfn Hn). rewrite concat_app. cbn [concat]. rewrite app_nil_r. do 3 f_equal.
    apply map_ext. intros j. apply (s_node r Hfn Hn).
  - destruct (Nat.eqb_spec i 4) as [->|H4].
    + cbn [Nat.eqb]. rewrite (s_node r Hfn Hn), nd_4, (s_sig r Hfn Hn), Ea. reflexivity.
    + unfold layer_sig. cbv zeta. rewrite Ea. destruct (Nat.eqb_spec i 0) as [->|H0].
      * cbn [layer_msg]. rewrite (s_sig r Hfn Hn). reflexivity.
      * rewrite Em by (clear - H0; lia). rewrite (s_sig r Hfn Hn). reflexivity.
Qed.
Lemma s_refused sks prfk rt seed m G : length G = 32 -> rt = mt_root P sks seed ->
  mt_verify P rt seed (toByte J (idx_size r) ++ PRF P prfk (toByte J 32) ++ bad_layers r sks prfk rt seed m G) m = false.
Proof.
  intros LG ->. destruct (many_facts r Hr Hmany) as (A1 & A2 & A3). rewrite (s_PRF r Hfn Hn), s_layers by exact LG.
  assert (Ert : mt_root P sks seed = w 176).
  { unfold mt_root, root. rewrite A1, (s_node r Hfn Hn), nd_5. reflexivity. }
  unfold mt_verify. cbv zeta. change (sp_ib P) with (idx_size r). rewrite (firstn_app_len (toByte J (idx_size r))) by (now rewrite toByte_length).
  rewrite (s_Hmsg r Hfn Hn), (s_n r Hn).
  assert (Eix : os2ip (toByte J (idx_size r)) = J).
  { rewrite os2ip_toByte. apply N.mod_small. pose proof (blim r Hr Hmany) as B. pose proof (idx_size_le true r Hr) as [_ B2].
    apply N.lt_le_trans with (2 ^ N.of_nat (r_h r))%N; [clear - B; lia|]. change 256%N with (2 ^ 8)%N. rewrite <- N.pow_mul_r. apply N.pow_le_mono_r; [discriminate|clear - B2; lia]. }
  rewrite Eix. rewrite app_assoc, skipn_app_len by (rewrite app_length, toByte_length, repeat_length; reflexivity).
  rewrite <- (app_nil_r (concat _)). change (sp_d P) with (r_d r). rewrite (s_mt_climb r Hfn Hn mb_bad (au_bad G) (au_ok G LG)), (run_run0 r Hn) by exact A1. rewrite Ert.
  assert (Er : run0 mb_bad (fun k => map (fun x => nth 0 x 0%N) (au_bad G k)) 0 J 0 (r_d r) = 192%N).
  { assert (Eab : forall k, map (fun x => nth 0 x 0%N) (au_bad G k) = ab_bad (nth 0 G 0%N) k).
    { intros k. unfold au_bad, ab_bad. destruct (k =? 3); reflexivity. }
    assert (Ex : forall cnt b k, run0 mb_bad (fun k => map (fun x => nth 0 x 0%N) (au_bad G k)) b J k cnt = run0 mb_bad (ab_bad (nth 0 G 0%N)) b J k cnt).
    { induction cnt as [|cnt IH]; intros b k; [reflexivity|]. cbn [run0]. rewrite IH, Eab. reflexivity. }
    rewrite Ex, A3. assert (Hx : forallb (fun r => (r_d r <=? r_h r / r_d r / 2 + 2) || (r_d r =? 8) || (r_d r =? 12)) (rows true) = true) by (vm_compute; reflexivity).
    rewrite forallb_forall in Hx. specialize (Hx r Hr). unfold few_layers in Hmany. apply orb_true_iff in Hx as [Hx|Hx]; [apply orb_true_iff in Hx as [Hx|Hx]|].
    - apply Nat.leb_le in Hx. contradiction.
    - apply Nat.eqb_eq in Hx. rewrite Hx. apply run_8.
    - apply Nat.eqb_eq in Hx. rewrite Hx. apply run_12. }
  rewrite Er. destruct (list_eq_dec N.eq_dec (w 192) (w 176)) as [Z|_]; [discriminate|reflexivity].
Qed.

Lemma fast_mt_breaks rnd pkr skr pkf skf cs m sm smlen mbuf mlen core : (forall i, (rnd i < 256)%N) ->
  length pkr = 4 + pk_size r -> length skr = 4 + sk_size r -> length pkf = 4 + pk_size r -> length skf = 4 + fast_size r -> bytes_ok skf -> a_core core ->
  N.of_nat (length cs) = (2 ^ 20)%N -> Forall (call_ok r) cs ->
  bytes_ok m -> sig_size r + length m <= length sm -> sig_size r + length m <= length mbuf ->
  exists pk kr kf kr' kf' ors ofs o_r o_f oo_r oo_f,
    keypair true ref_core pkr skr (r_oid r) rnd = Ok (0%Z, pk, kr) /\
    keypair true fast_core pkf skf (r_oid r) rnd = Ok (0%Z, pk, kf) /\
    sign_run true ref_core kr cs = Ok (kr', ors) /\ sign_run true fast_core kf cs = Ok (kf', ofs) /\
    length ors = length cs /\ Forall2 same_answer ors ofs /\
    sign true ref_core kr' sm smlen m = Ok o_r /\ so_rc o_r = 0%Z /\
    sign true fast_core kf' sm smlen m = Ok o_f /\ so_rc o_f = 0%Z /\
    sign_open true core mbuf mlen (signed_message o_r) pk = Ok oo_r /\ oo_rc oo_r = 0%Z /\
    sign_open true core mbuf mlen (signed_message o_f) pk = Ok oo_f /\ oo_rc oo_f = (-1)%Z.
Proof.
  intros Hb Lpr Lsr Lpf Lsf Bsf Hc Hl Hok Bm Lsm Lm. destruct (many_facts r Hr Hmany) as (A1 & A2 & A3). pose proof (blim r Hr Hmany) as Hlim.
  destruct (agree HE true r Hr (goodb r) (J + 1)%N (N.lt_le_incl _ _ Hlim) (bstep HE r Hr Hmany) (blen HE r Hr) (bkey HE r Hr Hmany) rnd pkr skr pkf skf cs Hb Lpr Lsr Lpf Lsf Bsf)
    as (pk & kr & kf & kr' & kf' & ors & ofs & K1 & K2 & _ & _ & R1 & R2 & _ & _ & R3 & R4); [rewrite A3, Hl; reflexivity|exact Hok|].
  destruct (sign_then_open HE true r rnd pkr skr cs m sm smlen mbuf mlen core Hr Hb Lpr Lsr Hc) as (pk1 & kr1 & kr1' & os1 & o_r & oo_r & B1 & B2 & B3 & B4 & _ & B6 & B7 & _); try assumption.
  { rewrite Hl, <- A3. exact Hlim. }
  rewrite K1 in B1. assert (pk1 = pk /\ kr1 = kr) as [-> ->] by (split; congruence). rewrite R1 in B2. assert (kr1' = kr') as -> by congruence.
  destruct (fkey_mat HE true r Hr (goodb r) (bkey HE r Hr Hmany) pkf skf rnd Hb Lpf Lsf Bsf) as (a & b & ct & d & ext & Hf & Hct & _ & HG & Hkp).
  rewrite K2 in Hkp. assert (pk = public_key r ct d /\ kf = secret_key r 0 a b ct d ++ ext) as [-> ->] by (split; congruence).
  pose proof Hf as [(La & Lb & Lc & Ld) (Ba & Bb & Bc & Bd)].
  destruct (frun_live true r Hr a b ct d (goodb r a d) (J + 1)%N (bstep HE r Hr Hmany a b ct d La Lb Lc Ld) cs 0%N ext HG) as (os & ext' & HG' & S1 & _ & _); [rewrite A3, Hl; reflexivity|exact Hok|].
  rewrite N.add_0_l, Hl, <- A3 in *. rewrite R2 in S1. assert (kf' = secret_key r J a b ct d ++ ext') as -> by congruence.
  destruct (bsign HE r Hr Hmany a b ct d ext' sm smlen m La Lb Lc Ld HG' Lsm) as (G & sk' & LG & Hs). rewrite Hn in LG.
  set (sg := toByte J (idx_size r) ++ PRF P b (toByte J 32) ++ bad_layers r a b ct d m G) in *.
  assert (Lsg : length sg = sig_size r).
  { unfold sg. rewrite !app_length, toByte_length, (s_PRF r Hfn Hn), repeat_length, s_layers by exact LG.
    assert (Lc2 : forall k c, length (concat (map (lay r mb_bad (au_bad G)) (seq k c))) = c * ((67 + sp_th P) * 32)).
    { intros k c. revert k. induction c as [|c IH]; intros k; [reflexivity|]. cbn [seq map concat]. rewrite app_length, IH. unfold lay.
      destruct (au_ok G LG k) as [X1 X2]. rewrite app_length, !concat32, map_length, seq_length, X1; [clear; lia|exact X2|].
      apply Forall_forall. intros y Hy. apply in_map_iff in Hy as (c' & <- & _). reflexivity. }
    rewrite Lc2. unfold sig_size, sp_sig_bytes. rewrite (s_len r Hn), (s_n r Hn). change (sp_d P) with (r_d r). unfold idx_size. clear. lia. }
  assert (Hkey : key_of r (pk_size r) (public_key r ct d)).
  { unfold public_key, pk_size. split; [rewrite !app_length, toByte_length; clear - Lc Ld; lia|]. split; [apply firstn_app_len; now rewrite toByte_length|].
    rewrite !bytes_ok_app. repeat split; try assumption. apply toByte_ok. }
  destruct (open_decides_ix HE true r core mbuf mlen (sg ++ m) (public_key r ct d) Hr Hc Hkey) as [oo [Hoo [_ [_ [Hrej _]]]]].
  { rewrite app_length. clear - Lsg. lia. }
  { unfold sg. rewrite <- app_assoc, firstn_app_len by (now rewrite toByte_length). apply toByte_ok. }
  { rewrite app_length. clear - Lsg Lm. lia. }
  rewrite (skipn_app_len sg m), (firstn_app_len sg m) in Hrej by (symmetry; exact Lsg).
  assert (Hrt : firstn (r_n r) (skipn 4 (public_key r ct d)) = ct).
  { unfold public_key. rewrite skipn_app_len by (now rewrite toByte_length). apply firstn_app_len. now symmetry. }
  assert (Hsd : skipn (4 + r_n r) (public_key r ct d) = d).
  { unfold public_key. rewrite app_assoc. apply skipn_app_len. rewrite app_length, toByte_length. clear - Lc. lia. }
  rewrite Hrt, Hsd in Hrej. destruct (Hrej (s_refused a b ct d m G LG Hct)) as [Z1 _].
  eexists _, _, _, _, _, ors, ofs, o_r, _, oo_r, oo. split; [exact K1|]. split; [exact K2|]. split; [exact R1|]. split; [exact R2|]. split; [exact R3|]. split; [exact R4|].
  split; [exact B3|]. split; [exact B4|]. split; [exact Hs|]. split; [reflexivity|]. split; [exact B6|]. split; [exact B7|]. split; [|exact Z1].
  unfold signed_message. cbn [so_smlen so_sm]. rewrite app_assoc, (firstn_app_len (sg ++ m)) by (rewrite app_length; clear - Lsg; lia). exact Hoo.
Qed.
End Step.

Lemma fast_p_eq (E : Env) r p : In r (rows true) -> SpecApi.parse_oid true fast_core_sk_bytes uninit_params (r_oid r) = Ok (Some p) -> p = row_params r (sk_fast r).
Proof. intros Hr Hpo. pose proof (parse_accept_fast true r uninit_params Hr) as Hpa. unfold SpecApi.parse_oid, ProofParams.parse_oid in *; congruence. Qed.
Lemma late_api (E : Env) : env_ok E -> forall r, In r (rows true) -> ~ few_layers r ->
  forall p rnd pk0 sk0 cs pk sk, SpecApi.parse_oid true fast_core_sk_bytes uninit_params (r_oid r) = Ok (Some p) -> (forall i, (rnd i < 256)%N) ->
  length pk0 = 4 + pk_size r -> length sk0 = 4 + fast_size r -> bytes_ok sk0 ->
  keypair true fast_core pk0 sk0 (r_oid r) rnd = Ok (0%Z, pk, sk) -> Forall (call_ok r) cs ->
  (N.of_nat (length cs) + 1 = 2 ^ 20)%N ->
  ((N.of_nat (length cs) + 1) mod 2 ^ N.of_nat (sp_th (row_sp r) * (3 + 1)) = 0)%N /\
  exists sk' os ss ws nx, sign_run true fast_core sk cs = Ok (sk', os) /\
    xmssmt_deserialize_state p (skipn 4 sk') = Ok (ss, ws) /\ nth_error ss (r_d r + 3) = Some nx /\
    st_next_leaf nx = 31%N /\ (2 ^ N.of_nat (sp_th (row_sp r)) = 32)%N.
Proof.
  intros HE r Hr Hm p rnd pk0 sk0 cs pk sk Hpo Hb L1 L2 B Hkp Hok Hl. rewrite (fast_p_eq E r p Hr Hpo).
  destruct (many_facts r Hr Hm) as (A1 & _ & _). rewrite Hl, A1. split; [reflexivity|].
  destruct (late_tree HE r Hr Hm rnd pk0 sk0 cs pk sk Hb L1 L2 B Hkp Hok Hl) as (sk' & os & ss & ws & nx & X1 & X2 & X3 & X4).
  exists sk', os, ss, ws, nx. auto.
Qed.
Lemma wrong_node_api (E : Env) : env_ok E -> forall r, In r (rows true) -> ~ few_layers r ->
  forall p rnd pk0 sk0 cs pk sk, SpecApi.parse_oid true fast_core_sk_bytes uninit_params (r_oid r) = Ok (Some p) -> (forall i, (rnd i < 256)%N) ->
  length pk0 = 4 + pk_size r -> length sk0 = 4 + fast_size r -> bytes_ok sk0 ->
  keypair true fast_core pk0 sk0 (r_oid r) rnd = Ok (0%Z, pk, sk) -> Forall (call_ok r) cs ->
  N.of_nat (length cs) = (2 ^ 20)%N ->
  let P := row_sp r in let i := N.of_nat (length cs) in let sks := sk_field r 0 sk in let seed := sk_field r 3 sk in
  let w := sp_len P * r_n r in
  exists sk' os ss ws, sign_run true fast_core sk cs = Ok (sk', os) /\
    xmssmt_deserialize_state p (skipn 4 sk') = Ok (ss, ws) /\
    firstn w (skipn (3 * w) ws) =
      concat (wots_sig P seed 4 (tree_of P i 4) (leaf_of P i 4) sks (node P sks seed 3 (tree_of P i 3) (sp_th P - 1) 0)).
Proof.
  intros HE r Hr Hm p rnd pk0 sk0 cs pk sk Hpo Hb L1 L2 B Hkp Hok Hl. rewrite (fast_p_eq E r p Hr Hpo). cbv zeta. clear p Hpo.
  destruct (many_facts r Hr Hm) as (A1 & A2 & A3). set (p := row_params r (sk_fast r)).
  destruct (fkey_mat HE true r Hr (goodb r) (bkey HE r Hr Hm) pk0 sk0 rnd Hb L1 L2 B) as (a & b & ct & d & ext & Hf & _ & _ & HG & Hkp').
  assert (Esk : sk = secret_key r 0 a b ct d ++ ext) by congruence. subst sk.
  destruct (fsk_parts r 0 a b ct d ext Hf) as (_ & _ & _ & E0 & _ & _ & E3). cbv zeta in *. rewrite E0, E3.
  pose proof Hf as [(F1 & F2 & F3 & F4) _].
  destruct (frun_live true r Hr a b ct d (goodb r a d) (fast_limit r + 1)%N (bstep HE r Hr Hm a b ct d F1 F2 F3 F4) cs 0%N ext HG) as (os & ext' & HG' & S1 & _ & _); [rewrite A3, Hl; reflexivity|exact Hok|].
  rewrite N.add_0_l in *. rewrite Hl, <- A3 in *. destruct HG' as [[Z _]|[_ (ss & ws & Hbr & ->)]]; [clear - Z; lia|].
  eexists _, os, ss, ws. split; [exact S1|]. pose proof Hbr as (I1 & I2 & _ & _ & I5 & _). split.
  - rewrite <- layout_ext. rewrite skipn_app_len by (now rewrite toByte_length). unfold sk_layout. rewrite !app_assoc. rewrite <- (app_assoc _ (concat _) ws). rewrite <- (app_nil_r ws) at 1.
    apply (deserialize_spec p (fp_kH true r Hr) (fp_H30 true r Hr) (fp_d true r Hr)).
    + rewrite !app_length, toByte_length. unfold p. rewrite (fp_ib r), row_n, F1, F2, F3, F4. clear. lia.
    + rewrite <- (row_n r (sk_fast r)) in F1, F4. exact (broken_ok p (row_hash r) (fp_ok true r Hr) (fp_hash HE true r Hr) (fp_kH true r Hr) (mr_H3 r Hr) (mr_HU r Hr) a d F1 F4 _ ss ws Hbr).
    + exact I2.
  - assert (U2 : (tree_height p - bds_k p) / 2 = 2) by (unfold p; rewrite (mr_U r), A1; reflexivity).
    specialize (I5 3). fold p in I5. rewrite U2 in I5. unfold p in I5 at 1. rewrite row_dd in I5. specialize (I5 ltac:(clear - A2; lia)).
    cbn [Nat.add Nat.eqb] in I5. unfold ck, p in I5. rewrite row_wsig, row_n, (fp_len r) in I5. rewrite I5. fold p.
    unfold bad_sig, half. fold p. rewrite U2. unfold p. rewrite sp_of_row, <- (sp_of_row r (sk_fast r)). rewrite !(tree_hi _ (row_hash r) (fp_ok true r Hr)), (leaf_dig' _ (row_hash r) (fp_ok true r Hr)).
    cbn [Nat.add]. rewrite sp_of_row, (fp_th r). reflexivity.
Qed.
