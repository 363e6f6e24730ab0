(** C29 (stored traversal state), exhausted keys and last signature of the fast core. *)
From Verif Require Import Base ModelUtils ModelParams ModelCommons ModelCore ModelCoreFast ModelXmss.
From Verif Require Import SpecRfc SpecFips202 SpecParams SpecApi SpecComp SpecFast Lib ProofUtils ProofHash ProofCore ProofParams ProofApi ProofHistory ProofMain ProofMain2.
From Verif Require Import ProofToy ProofMain3 ProofComp ProofWots ProofCommons ProofTree ProofSched ProofBds1 ProofBds2 ProofBds3 ProofBds4 ProofFast1 ProofFast2 ProofFast3 ProofFast4 ProofFast5 ProofFast6.

Section FP.
Context {E : Env}.
Lemma ser_size p P k : p_n p = sp_n P -> tree_height p = sp_th P -> p_d p = sp_d P -> bds_k p = k -> k < tree_height p -> 1 <= p_d p -> index_bytes p = sp_ib P ->
  wots_sig_bytes p = sp_len P * sp_n P -> N.to_nat (fast_sk_size P k) = index_bytes p + 4 * p_n p + ser_bytes p.
Proof.
  intros En Et Ed Ek Hk Hd Ei Ew. unfold fast_sk_size, ser_bytes, nstates, state_bytes, th_bytes, rcount, thcount. rewrite Ew, En, Et, Ed, Ek, Ei in *.
  set (n := sp_n P) in *. set (t := sp_th P) in *. set (d := sp_d P) in *. set (l := sp_len P * n) in *. cbv zeta.
  replace (N.of_nat t / 2)%N with (N.of_nat (t / 2)) by (rewrite Nat2N.inj_div; reflexivity).
  replace (2 ^ N.of_nat k - N.of_nat k - 1)%N with (N.of_nat (2 ^ k - k - 1)) by (rewrite pow2_of_nat; lia).
  replace (N.of_nat t - N.of_nat k)%N with (N.of_nat (t - k)) by lia.
  replace (2 * N.of_nat d - 1)%N with (N.of_nat (2 * d - 1)) by lia. replace (N.of_nat d - 1)%N with (N.of_nat (d - 1)) by lia.
  set (e := t - k). set (g := 2 ^ k - k - 1). set (t2 := t / 2). set (d2 := 2 * d - 1). set (d3 := d - 1).
  replace (N.of_nat (sp_len P) * N.of_nat n)%N with (N.of_nat l) by (unfold l; now rewrite Nat2N.inj_mul).
  match goal with |- N.to_nat ?x = ?y => replace x with (N.of_nat y); [apply Nat2N.id|] end.
  rewrite !Nat2N.inj_add, !Nat2N.inj_mul, !Nat2N.inj_add, !Nat2N.inj_mul, !Nat2N.inj_add. change (N.of_nat 4) with 4%N. change (N.of_nat 7) with 7%N. change (N.of_nat 1) with 1%N.
  clearbody e g t2 d2 d3 n t l. ring.
Qed.

Lemma fast_params_facts p P k : fast_params p P k ->
  params_ok p /\ p_n p = sp_n P /\ tree_height p = sp_th P /\ p_d p = sp_d P /\ bds_k p = k /\ k < tree_height p /\ index_bytes p = sp_ib P /\
  wots_sig_bytes p = sp_len P * sp_n P /\ ModelParams.sk_bytes p = N.to_nat (fast_sk_size P k) /\
  (forall Hf, sp_of p Hf = mkSp (sp_n P) (sp_lgw P) (sp_pad P) (sp_h P) (sp_d P) Hf) /\ (env_ok E -> hash_total p (sp_hash P)).
Proof.
  intros Hfp. inversion Hfp as [mt r p' Hr Hpo|c p0 p' Hc Hi Hin Hk Hsz]; subst.
  - pose proof (parse_accept_fast mt r uninit_params Hr) as Hpa.
    assert (Hp' : p = row_params r (sk_fast r)).
    { unfold SpecApi.parse_oid in Hpo; unfold ProofParams.parse_oid in Hpa; destruct mt; rewrite Hpa in Hpo; congruence. }
    subst p. pose proof (fp_ok mt r Hr) as Hp.
    split; [exact Hp|]. split; [apply Nat2N.id|]. split; [apply fp_th|]. split; [apply Nat2N.id|]. split; [reflexivity|]. split; [exact (fp_kH mt r Hr)|].
    split; [apply fp_ib|]. split; [rewrite (po_wsig _ Hp), fp_len; f_equal; apply Nat2N.id|].
    split; [change (N.to_nat (fast_sk_size (row_sp r) 0)) with (fast_size r); rewrite (fast_size_eq mt r Hr); exact (fp_sk mt r Hr)|]. split; [|intros HE; exact (fp_hash HE mt r Hr)].
    intros Hf. exact (eq_trans eq_refl (f_equal (fun P => mkSp (sp_n P) (sp_lgw P) (sp_pad P) (sp_h P) (sp_d P) Hf) (sp_of_row r (sk_fast r)))).
  - pose proof Hin as Hin'. rewrite (init_cp c Hc _ p0 Hi) in Hin'. injection Hin' as Hin'. symmetry in Hin'.
    assert (HskN : f_sk_bytes p = fast_sk_size (custom_sp c) (bds_k p0)).
    { rewrite Hin'. cbn [cp f_sk_bytes]. unfold bds_k. apply (cp_fast_sk c Hc); [|exact Hsz]. unfold bds_k in Hk. lia. }
    assert (Hp : params_ok p).
    { pose proof HskN as Hsk. rewrite Hin' in *. apply cp_ok; [exact Hc|]. cbn [cp f_sk_bytes] in Hsk. rewrite Hsk. unfold fast_sk_size.
      change (sp_n (custom_sp c)) with (cu_n c). rewrite <- (N.add_assoc (_ + _)%N). apply N.le_add_r. }
    assert (Hn : p_n p = cu_n c) by (rewrite Hin'; apply Nat2N.id).
    assert (Ht : tree_height p = cu_h c / cu_d c) by (rewrite Hin'; apply Nat2N.id).
    assert (Hsp : forall Hf, sp_of p Hf = mkSp (cu_n c) (cu_lgw c) (cu_pad c) (cu_h c) (cu_d c) Hf).
    { intros Hf. rewrite Hin'. unfold sp_of, p_n, wots_log_w, padding_len, full_height, p_d, cp. cbn [f_n f_wots_log_w f_padding_len f_full_height f_d]. now rewrite !Nat2N.id. }
    split; [exact Hp|]. split; [exact Hn|]. split; [exact Ht|]. split; [rewrite Hin'; apply Nat2N.id|]. split; [rewrite Hin'; reflexivity|].
    split; [rewrite Ht; exact Hk|]. split; [rewrite (po_ib p Hp), (Hsp (fun x => x)); reflexivity|].
    split; [rewrite (po_wsig p Hp), Hn; f_equal|]. 2: split; [unfold ModelParams.sk_bytes; now rewrite HskN|split; [exact Hsp|]].
    + rewrite <- (sp_len_of p (sp_hash (custom_sp c)) Hp). now rewrite Hsp.
    + intros HE. rewrite Hin'. now apply cp_hash.
Qed.

Lemma wf_states_ok p P k ss ws : fast_params p P k -> wf_traversal P k ss ws -> states_ok p ss /\ length ws = (p_d p - 1) * wots_sig_bytes p.
Proof.
  intros Hfp (W1 & W2 & W3). destruct (fast_params_facts p P k Hfp) as (Hp & En & Et & Ed & Ek & _ & _ & Ew & _).
  split; [|rewrite Ew, Ed; exact W3]. split; [unfold nstates; rewrite Ed; exact W1|].
  split; apply Forall_forall; intros s Hs; rewrite Forall_forall in W2; destruct (W2 s Hs) as (A1 & A2 & A3 & A4 & A5 & A6 & A7 & A8 & A9); rewrite Forall_forall in A6.
  - constructor; unfold thcount, rcount; rewrite ?En, ?Et, ?Ek; try assumption. intros j t Ht. apply nth_error_In in Ht. apply (A6 t Ht).
  - split; [exact A8|]. split; [exact A9|]. apply Forall_forall. intros t Ht. destruct (A6 t Ht) as (B1 & B2 & B3 & B4 & _). repeat split; assumption.
Qed.
Lemma states_ok_wf p P k ss ws : fast_params p P k -> states_ok p ss -> length ws = (p_d p - 1) * wots_sig_bytes p -> wf_traversal P k ss ws.
Proof.
  intros Hfp (W1 & W2 & W3) Hw. destruct (fast_params_facts p P k Hfp) as (Hp & En & Et & Ed & Ek & _ & _ & Ew & _).
  split; [unfold nstates in W1; rewrite Ed in W1; exact W1|]. split; [|rewrite Hw, Ew, Ed; reflexivity].
  apply Forall_forall. intros s Hs. rewrite Forall_forall in W2, W3. destruct (W3 s Hs) as (R1 & R2 & R3). pose proof (shape_nodes p s (W2 s Hs)) as Hn.
  destruct (W2 s Hs) as [A1 A2 A3 A4 A5 A6 A7]. unfold thcount, rcount in *. rewrite ?En, ?Et, ?Ek in *.
  split; [exact A1|]. split; [exact A2|]. split; [exact A3|]. split; [exact A4|]. split; [exact A5|]. split; [|split; [exact A7|split; assumption]].
  apply Forall_forall. intros t Ht. rewrite Forall_forall in R3, Hn. destruct (R3 t Ht) as (B1 & B2 & B3 & B4). specialize (Hn t Ht). repeat split; assumption.
Qed.
Lemma fp_ser_size p P k : fast_params p P k -> ModelParams.sk_bytes p = index_bytes p + 4 * p_n p + ser_bytes p.
Proof.
  intros Hfp. destruct (fast_params_facts p P k Hfp) as (Hp & En & Et & Ed & Ek & Hk & Ei & Ew & Esk & _). rewrite Esk. apply ser_size; try assumption. exact (po_d p Hp).
Qed.

Lemma store_load p P k sk ss ws : fast_params p P k -> length sk = ModelParams.sk_bytes p -> wf_traversal P k ss ws ->
  exists sk', xmssmt_serialize_state p sk ss ws = Ok sk' /\ length sk' = length sk /\
    firstn (sp_ib P + 4 * sp_n P) sk' = firstn (sp_ib P + 4 * sp_n P) sk /\ xmssmt_deserialize_state p sk' = Ok (ss, ws).
Proof.
  intros Hfp Hl Hwf. pose proof (fp_ser_size p P k Hfp) as Hsz. destruct (wf_states_ok p P k ss ws Hfp Hwf) as [Hss Hws].
  destruct (fast_params_facts p P k Hfp) as (Hp & En & Et & Ed & Ek & Hk & Ei & Ew & Esk & _). rewrite <- Ek in Hk. rewrite <- Ei, <- En.
  pose proof (po_th p Hp) as Hth. pose proof (po_d p Hp) as Hd.
  set (pre := firstn (index_bytes p + 4 * p_n p) sk). set (old := skipn (index_bytes p + 4 * p_n p) sk).
  assert (Lp : length pre = index_bytes p + 4 * p_n p) by (unfold pre; rewrite firstn_length; lia).
  assert (Lo : length old = ser_bytes p) by (unfold old; rewrite skipn_length; lia).
  assert (Hc : sk = pre ++ old ++ []) by (rewrite app_nil_r; symmetry; apply firstn_skipn).
  exists (pre ++ concat (map (store_state p) ss) ++ ws ++ []).
  split; [rewrite Hc; apply (serialize_spec p Hk ltac:(lia) Hd); assumption|].
  split; [rewrite !app_length, (store_states_length p Hk ltac:(lia) Hd) by apply Hss; rewrite Lp, Hws, Hl, Hsz; destruct Hss as (-> & _); unfold ser_bytes; cbn [length]; lia|].
  split; [apply firstn_app_len; now rewrite Lp|]. apply (deserialize_spec p Hk ltac:(lia) Hd); assumption.
Qed.
Lemma load_store p P k sk : fast_params p P k -> length sk = ModelParams.sk_bytes p -> bytes_ok sk ->
  exists ss ws, xmssmt_deserialize_state p sk = Ok (ss, ws) /\ wf_traversal P k ss ws /\ xmssmt_serialize_state p sk ss ws = Ok sk.
Proof.
  intros Hfp Hl Hb. pose proof (fp_ser_size p P k Hfp) as Hsz.
  destruct (fast_params_facts p P k Hfp) as (Hp & En & Et & Ed & Ek & Hk & Ei & Ew & Esk & _). rewrite <- Ek in Hk.
  pose proof (po_th p Hp) as Hth. pose proof (po_d p Hp) as Hd.
  set (pre := firstn (index_bytes p + 4 * p_n p) sk). set (old := skipn (index_bytes p + 4 * p_n p) sk).
  assert (Lp : length pre = index_bytes p + 4 * p_n p) by (unfold pre; rewrite firstn_length; lia).
  assert (Lo : length old = ser_bytes p) by (unfold old; rewrite skipn_length; lia).
  assert (Hc : sk = pre ++ old ++ []) by (rewrite app_nil_r; symmetry; apply firstn_skipn).
  assert (Bo : bytes_ok old) by (rewrite Hc, !bytes_ok_app in Hb; tauto).
  destruct (ser_of_bytes p Hk ltac:(lia) Hd old Lo Bo) as (ss & ws & He & Hss & Hws). exists ss, ws.
  split; [rewrite Hc, He, <- app_assoc; apply (deserialize_spec p Hk ltac:(lia) Hd); assumption|].
  split; [exact (states_ok_wf p P k ss ws Hfp Hss Hws)|].
  rewrite Hc at 1. rewrite (serialize_spec p Hk ltac:(lia) Hd pre old [] ss ws Lp Lo Hss Hws). f_equal. rewrite Hc, He, !app_nil_r. reflexivity.
Qed.
End FP.

(** ** Keys with arbitrary contents *)
Section AnyKey.
Context {E : Env}.
Variable (mt : bool) (r : row).
Hypothesis Hr : In r (rows mt).
Notation p := (row_params r (sk_fast r)).
Notation n := (r_n r).
Notation ib := (idx_size r).

Lemma fast_key_split sk : key_of r (fast_size r) sk ->
  exists ext, fields r (sk_field r 0 sk) (sk_field r 1 sk) (sk_field r 2 sk) (sk_field r 3 sk) /\
    sk = secret_key r (sk_index r sk) (sk_field r 0 sk) (sk_field r 1 sk) (sk_field r 2 sk) (sk_field r 3 sk) ++ ext /\
    length ext = ser_bytes p /\ bytes_ok ext /\ (sk_index r sk < 256 ^ N.of_nat ib)%N.
Proof.
  intros (Hl & H4 & Hb). rewrite (fast_size_eq mt r Hr) in Hl.
  set (sk1 := firstn (4 + sk_size r) sk). set (ext := skipn (4 + sk_size r) sk).
  assert (Hc : sk = sk1 ++ ext) by (symmetry; apply firstn_skipn).
  assert (L1 : length sk1 = 4 + sk_size r) by (unfold sk1; rewrite firstn_length; unfold sk_size; lia).
  assert (Hk1 : key_of r (sk_size r) sk1).
  { split; [exact L1|]. split; [unfold sk1; rewrite firstn_firstn, Nat.min_l by lia; exact H4|]. rewrite Hc, bytes_ok_app in Hb. tauto. }
  assert (Hsf : forall i, i < 4 -> sk_field r i sk = sk_field r i sk1).
  { intros i Hi. unfold sk_field. rewrite Hc at 1. rewrite skipn_app, firstn_app. assert (Hin : i * n <= 3 * n) by (apply Nat.mul_le_mono_r; lia).
    rewrite skipn_length, L1. unfold sk_size. replace (n - (4 + (ib + 4 * n) - (4 + ib + i * n))) with 0 by (clear - Hin; lia). cbn [firstn]. apply app_nil_r. }
  assert (Hix : sk_index r sk = sk_index r sk1).
  { unfold sk_index. rewrite Hc at 1. rewrite skipn_app, firstn_app, skipn_length, L1. unfold sk_size.
    replace (ib - (4 + (ib + 4 * n) - 4)) with 0 by lia. cbn [firstn]. now rewrite app_nil_r. }
  exists ext. rewrite !Hsf, Hix by lia.
  pose proof (sk_split r sk1 Hk1) as Hsp. rewrite layout_sk in Hsp.
  split; [|split; [|split; [|split]]].
  - assert (Bk : bytes_ok sk1) by apply Hk1. pose proof (sk_fields_length r sk1 Hk1) as Hfl.
    split; [repeat split; apply Hfl; lia|].
    assert (Hfb : forall i, bytes_ok (sk_field r i sk1)) by (intros i; unfold sk_field; apply bytes_ok_firstn, bytes_ok_skipn, Bk). repeat split; apply Hfb.
  - rewrite Hc at 1. f_equal. exact Hsp.
  - unfold ext. rewrite skipn_length, Hl. unfold sk_size. lia.
  - rewrite Hc, bytes_ok_app in Hb. tauto.
  - apply (idx_lt r sk1 Hk1).
Qed.

Lemma fast_refused sk sm smlen m : key_of r (fast_size r) sk -> (2 ^ N.of_nat (r_h r) <= sk_index r sk)%N ->
  sign mt fast_core sk sm smlen m =
  Ok (mkSign (-2) (firstn 4 sk ++ repeat 255%N ib ++ repeat 0%N (fast_size r - ib)) sm smlen).
Proof.
  intros Hk Hi. destruct (fast_key_split sk Hk) as (ext & ((La & Lb & Lc & Ld) & _) & Hsk & Lx & Bx & Hlt). pose proof Hk as (_ & H4 & _).
  rewrite Hsk at 1. rewrite (fdead mt r Hr); try assumption; [|now apply (ser_bytes_ok mt r Hr)|split; assumption].
  do 2 f_equal. rewrite H4. unfold secret_key. rewrite top_repeat, <- !app_assoc. do 2 f_equal. rewrite !app_assoc, <- !repeat_app. f_equal.
  rewrite (fast_size_eq mt r Hr). lia.
Qed.

Lemma fast_last_keyless (HE : env_ok E) sk1 sk2 sm1 sm2 l1 l2 m : key_of r (fast_size r) sk1 -> key_of r (fast_size r) sk2 ->
  (sk_index r sk1 + 1 = 2 ^ N.of_nat (r_h r))%N -> (sk_index r sk2 + 1 = 2 ^ N.of_nat (r_h r))%N ->
  sig_size r + length m <= length sm1 -> sig_size r + length m <= length sm2 ->
  exists o1 o2, sign mt fast_core sk1 sm1 l1 m = Ok o1 /\ sign mt fast_core sk2 sm2 l2 m = Ok o2 /\
    so_rc o1 = 0%Z /\ so_rc o2 = 0%Z /\ signed_message o1 = signed_message o2.
Proof.
  intros K1 K2 I1 I2 F1 F2.
  assert (Hone : forall sk sm l, key_of r (fast_size r) sk -> (sk_index r sk + 1 = 2 ^ N.of_nat (r_h r))%N -> sig_size r + length m <= length sm ->
    exists o, sign mt fast_core sk sm l m = Ok o /\ so_rc o = 0%Z /\
      so_smlen o = sig_size r + length m /\ exists rest, so_sm o = (toByte (2 ^ N.of_nat (r_h r) - 1) ib ++ last_tail r m) ++ m ++ rest).
  { intros sk sm l Hk Hi Hf. destruct (fast_key_split sk Hk) as (ext & ((La & Lb & Lc & Ld) & _) & Hsk & Lx & Bx & Hlt).
    replace (sk_index r sk) with (2 ^ N.of_nat (r_h r) - 1)%N in Hsk by lia.
    destruct (flast HE mt r Hr _ _ _ _ ext sm l m La Lb Lc Ld (ser_bytes_ok mt r Hr ext Lx Bx) Hf) as (ext' & _ & Hs). rewrite <- Hsk in Hs.
    eexists. split; [exact Hs|]. split; [reflexivity|]. split; [reflexivity|]. eexists. reflexivity. }
  destruct (Hone sk1 sm1 l1 K1 I1 F1) as (o1 & S1 & R1 & L1 & t1 & M1). destruct (Hone sk2 sm2 l2 K2 I2 F2) as (o2 & S2 & R2 & L2 & t2 & M2).
  exists o1, o2. repeat (split; [assumption|]). unfold signed_message. rewrite L1, L2, M1, M2.
  set (sg := toByte _ _ ++ _). assert (Lsg : length sg = sig_size r).
  { unfold sg, last_tail. cbv zeta. pose proof (fp_hash HE mt r Hr) as HH. pose proof (fp_ok mt r Hr) as Hp.
    rewrite !app_length, repeat_length, toByte_length, <- !(sp_of_row r (sk_fast r)), (PRF_length _ _ HH).
    rewrite (chunked_length (p_n p)) by apply (wots_sig_chunked p _ HH). rewrite wots_sig_length by exact Hp.
    rewrite (row_n' r), (fp_len r), !(sp_of_row r (sk_fast r)). unfold sig_size, sp_sig_bytes. change (sp_n (row_sp r)) with n. change (sp_d (row_sp r)) with (r_d r). unfold idx_size.
    pose proof (fp_d mt r Hr) as Hd. rewrite row_d' in Hd. set (L := sp_len (row_sp r)). set (h := sp_th (row_sp r)).
    destruct (r_d r) as [|d']; [lia|]. cbn [Nat.sub Nat.mul]. rewrite Nat.sub_0_r. rewrite !Nat.mul_add_distr_r, Nat.mul_add_distr_l, !Nat.mul_assoc. lia.
    }
  rewrite !(app_assoc sg m), !firstn_app_len by (rewrite app_length, Lsg; reflexivity). reflexivity.
Qed.

Lemma fast_keypair_leaves pk sk rnd : mt = false -> env_ok E -> length pk = 4 + pk_size r -> length sk = 4 + fast_size r -> bytes_ok sk ->
  exists pk' sk', keypair mt fast_core pk sk (r_oid r) rnd = Ok (0%Z, pk', sk') /\
    firstn ((sp_th (row_sp r) + 1) * n) (skipn (4 + sk_size r) sk') = firstn ((sp_th (row_sp r) + 1) * n) (skipn (4 + sk_size r) sk).
Proof.
  intros -> HE Lpk Lsk Bsk. destruct (xkeypair HE r Hr pk sk rnd Lpk Lsk Bsk) as (ext & _ & _ & Hst & Hkp). cbv zeta in *.
  eexists _, _. split; [exact Hkp|]. rewrite skipn_app_len; [exact Hst|].
  unfold secret_key. rewrite !app_length, !toByte_length, !map_length, !seq_length. rewrite (proj1 (root_facts HE false r _ _ Hr)). unfold sk_size. lia.
Qed.
End AnyKey.

(** ** C02 for the fast core, in the witness environment *)
Section Toy.
Local Existing Instance zero_env.
Variables (mt : bool) (r : row).
Hypothesis Hr : In r (rows mt).
Hypothesis Hfn : r_fn r = SHA2.
Hypothesis Hn : r_n r = 32.
Notation z := (repeat 0%N 32).
Notation P := (row_sp r).
Notation p := (row_params r (sk_fast r)).
Notation lim := (2 ^ N.of_nat (r_h r))%N.
Variable G : bytes -> bytes -> N -> bytes -> Prop.
Hypothesis Gstep : forall sks prfk rt seed, length sks = r_n r -> length prfk = r_n r -> length rt = r_n r -> length seed = r_n r ->
  forall i ext sm smlen m, G sks seed i ext -> (i + 1 < lim)%N -> sig_size r + length m <= length sm ->
  exists ext', G sks seed (i + 1)%N ext' /\
  fsg mt p (sk_layout (toByte i (idx_size r)) sks prfk rt seed ext) sm smlen m =
  Ok (mkSign 0 (sk_layout (toByte (i + 1) (idx_size r)) sks prfk rt seed ext')
       (mt_sign P sks prfk rt seed i m ++ m ++ skipn (sig_size r + length m) sm) (sig_size r + length m)).
Hypothesis Gser : forall sks seed i ext, length sks = r_n r -> length seed = r_n r -> G sks seed i ext -> ser_image p ext.
Hypothesis Gkey : forall pk sk rnd, length pk = 4 + pk_size r -> length sk = 4 + fast_size r -> bytes_ok sk ->
  let sks := map rnd (seq 0 (r_n r)) in let prfk := map rnd (seq (r_n r) (r_n r)) in let seed := map rnd (seq (2 * r_n r) (r_n r)) in
  let rt := mt_root P sks seed in
  exists ext, G sks seed 0%N ext /\
  keypair mt fast_core pk sk (r_oid r) rnd = Ok (0%Z, public_key r rt seed, secret_key r 0 sks prfk rt seed ++ ext).

Lemma fast_last_fails rnd pk0 sk0 cs m sm smlen mbuf mlen core : (forall i, (rnd i < 256)%N) -> map rnd (seq 0 32) <> z ->
  length pk0 = 4 + pk_size r -> length sk0 = 4 + fast_size r -> bytes_ok sk0 -> a_core core ->
  (N.of_nat (length cs) + 1 = lim)%N -> Forall (call_ok r) cs ->
  bytes_ok m -> sig_size r + length m <= length sm -> sig_size r + length m <= length mbuf ->
  exists pk sk sk' os o oo,
    keypair mt fast_core pk0 sk0 (r_oid r) rnd = Ok (0%Z, pk, sk) /\
    sign_run mt fast_core sk cs = Ok (sk', os) /\
    sign mt fast_core sk' sm smlen m = Ok o /\ so_rc o = 0%Z /\
    sign_open mt core mbuf mlen (signed_message o) pk = Ok oo /\ oo_rc oo = (-1)%Z.
Proof.
  intros Hb Hne Hpk Hsk Bsk Hc Hi Hok Bm Lsm Lm. pose proof zero_env_ok as HE.
  destruct (fkey_mat HE mt r Hr G Gkey pk0 sk0 rnd Hb Hpk Hsk Bsk) as (a & b & ct & d & ext & Hf & Hct & Hmat & HG & Hkp).
  pose proof Hf as [[La [Lb [Lc Ld]]] [Ba [Bb [Bc Bd]]]].
  destruct (frun_live mt r Hr a b ct d (G a d) (2 ^ N.of_nat (r_h r))%N (Gstep a b ct d La Lb Lc Ld) cs 0%N ext HG ltac:(lia) Hok) as (os & ext' & HG' & Hrun & _ & _).
  rewrite N.add_0_l in *. replace (N.of_nat (length cs)) with (lim - 1)%N in * by lia.
  assert (Ha : a = map rnd (seq 0 32)) by (unfold key_material in Hmat; rewrite Hn in Hmat; congruence).
  destruct (flast HE mt r Hr a b ct d ext' sm smlen m La Lb Lc Ld (Gser a d _ ext' La Ld HG') Lsm) as (ext2 & _ & Hs).
  set (R := PRF P z (toByte (lim - 1) 32)).
  assert (HR : length R = 32).
  { unfold R. rewrite <- (sp_of_row r (sk_ref r)), (PRF_length _ _ (p_hash HE mt r Hr)). now rewrite row_n. }
  set (x := concat (repeat z (r_d r * (sp_len P + sp_th P)))).
  assert (Htail : last_tail r m = R ++ x).
  { unfold last_tail. cbv zeta. rewrite Hn. fold R. f_equal.
    match goal with |- concat ?w ++ _ = _ => assert (Hw : w = repeat z (sp_len P)) by (apply (toy_wots_sig (fun _ => 0%N) r Hfn Hn z z (repeat_length _ _) (zeros_ok 32))) end.
    rewrite Hw. unfold x. pose proof (row_d_pos mt r Hr) as Hdp.
    replace (r_d r * (sp_len P + sp_th P)) with (sp_len P + (sp_th P + (r_d r - 1) * (sp_len P + sp_th P))) by (destruct (r_d r); [lia|]; cbn [Nat.sub Nat.mul]; rewrite Nat.sub_0_r; lia).
    rewrite (repeat_app z), concat_app. f_equal.
    assert (Hcr : forall k, concat (repeat z k) = repeat 0%N (k * 32)).
    { induction k as [|k IH]; [reflexivity|]. change (concat (repeat z (S k))) with (z ++ concat (repeat z k)). rewrite IH. rewrite <- repeat_app. reflexivity. }
    rewrite Hcr. f_equal. rewrite Nat.mul_add_distr_r, <- Nat.mul_assoc, Nat.mul_add_distr_r. reflexivity. }
  set (sg := toByte (lim - 1) (idx_size r) ++ R ++ x).
  assert (Hs' : sign mt fast_core (secret_key r (lim - 1) a b ct d ++ ext') sm smlen m =
     Ok (mkSign 0 (secret_key r lim (repeat 0%N (r_n r)) (repeat 0%N (r_n r)) (repeat 0%N (r_n r)) (repeat 0%N (r_n r)) ++ ext2) ((sg ++ m) ++ skipn (sig_size r + length m) sm) (sig_size r + length m))).
  { rewrite Hs, Htail. unfold sg. rewrite <- !app_assoc. reflexivity. }
  assert (Lx : length x = r_d r * (sp_len P + sp_th P) * 32) by (apply concat_repeat_length, repeat_length).
  assert (Lsg : length sg = sig_size r).
  { unfold sg. rewrite !app_length, toByte_length, HR, Lx. unfold sig_size, sp_sig_bytes. change (sp_n P) with (r_n r). rewrite Hn. change (sp_d P) with (r_d r). unfold idx_size. lia. }
  assert (Bsg : bytes_ok sg).
  { unfold sg. rewrite !bytes_ok_app. split; [apply toByte_ok|].
    split; [unfold R; apply (Hf_bytes (row_params r (sk_ref r)) _ (p_hash HE mt r Hr))|].
    apply bytes_ok_concat, Forall_forall. intros y Hy. apply repeat_spec in Hy. subst. apply zeros_ok. }
  rewrite Hn in La, Lb, Lc, Ld.
  assert (Hkey : key_of r (pk_size r) (public_key r ct d)).
  { unfold public_key, pk_size. split; [rewrite !app_length, toByte_length; lia|]. split; [apply firstn_app_len; now rewrite toByte_length|].
    rewrite !bytes_ok_app. repeat split; try assumption. apply toByte_ok. }
  destruct (open_decides HE mt r core mbuf mlen (sg ++ m) (public_key r ct d) Hr Hc Hkey) as [oo [Hoo [_ [_ [Hrej _]]]]].
  - rewrite app_length. lia.
  - rewrite bytes_ok_app. auto.
  - rewrite app_length. lia.
  - rewrite (skipn_app_len sg m), (firstn_app_len sg m) in Hrej by lia.
    assert (Hrt : firstn (r_n r) (skipn 4 (public_key r ct d)) = a).
    { unfold public_key. rewrite skipn_app_len by (now rewrite toByte_length). rewrite firstn_app_len by lia.
      rewrite Hct. apply (toy_root (fun _ => 0%N) r Hfn Hn a d La Ba). }
    rewrite Hrt in Hrej. unfold sg in Hrej at 1. rewrite (toy_verify mt r Hr Hfn Hn z) in Hrej; [|apply repeat_length|apply zeros_ok|apply toByte_length|exact HR|reflexivity].
    destruct (list_eq_dec N.eq_dec z a) as [He|_]; [congruence|]. destruct (Hrej eq_refl) as [A1 _].
    eexists _, _, _, os, _, oo. split; [exact Hkp|]. split; [exact Hrun|]. split; [exact Hs'|]. split; [reflexivity|]. split; [|exact A1].
    unfold signed_message. cbn [so_smlen so_sm]. rewrite (firstn_app_len (sg ++ m)) by (rewrite app_length; lia). exact Hoo.
Qed.
End Toy.

(** ** The XMSS instance *)
Section XmssInst.
Context {E : Env}.
Hypothesis HE : env_ok E.
Variable r : row.
Hypothesis Hr : In r (rows false).
Lemma x_Gser sks seed i ext : length sks = r_n r -> length seed = r_n r -> good1 r sks seed i ext -> ser_image (row_params r (sk_fast r)) ext.
Proof.
  intros L1 L2 (s & Hs & Hn & ->). exists [s], []. split; [cbn [map concat]; now rewrite !app_nil_r|].
  assert (Hd : p_d (row_params r (sk_fast r)) = 1) by (rewrite row_d'; exact (proj1 (xr_facts r Hr))).
  pose proof (fp_ok false r Hr) as Hp. pose proof (fp_hash HE false r Hr) as HH. pose proof (fp_kH false r Hr) as Hk.
  split; [|rewrite Hd; reflexivity]. split; [unfold nstates; rewrite Hd; reflexivity|].
  pose proof Hs as (f & u & Hi & _ & Ht).
  assert (Hb0 : base_ok (row_params r (sk_fast r)) []) by (split; [cbn; lia|intros a []]).
  split; (constructor; [|constructor]).
  - destruct Ht as [[Hx _ _ _] _ _ _]. exact Hx.
  - refine (trav_range (row_params r (sk_fast r)) (row_hash r) Hp HH Hk (xr_H2 r Hr) (xr_HU r Hr) sks seed 0 0 _ _ (N.to_nat i) u f [] s Hi Hb0 Ht Hn); now rewrite (row_n' r).
Qed.
Lemma x_Gkey pk sk rnd : length pk = 4 + pk_size r -> length sk = 4 + fast_size r -> bytes_ok sk ->
  let sks := map rnd (seq 0 (r_n r)) in let prfk := map rnd (seq (r_n r) (r_n r)) in let seed := map rnd (seq (2 * r_n r) (r_n r)) in
  let rt := mt_root (row_sp r) sks seed in
  exists ext, good1 r sks seed 0%N ext /\
  keypair false fast_core pk sk (r_oid r) rnd = Ok (0%Z, public_key r rt seed, secret_key r 0 sks prfk rt seed ++ ext).
Proof. intros A B C. cbv zeta. destruct (xkeypair HE r Hr pk sk rnd A B C) as (ext & G & _ & _ & K). exists ext. auto. Qed.
Lemma xr_idx : r_h r < 8 * idx_size r.
Proof.
  assert (A : forallb (fun x => r_h x <? 8 * idx_size x) (rows false) = true) by (vm_compute; reflexivity).
  rewrite forallb_forall in A. apply Nat.ltb_lt. exact (A r Hr).
Qed.
Lemma fast_keypair_two_keys : exists pk0 sk1 sk2, length pk0 = 4 + pk_size r /\ length sk1 = 4 + fast_size r /\ length sk2 = 4 + fast_size r /\
  forall rnd, exists pk1 pk2 sk1' sk2',
    keypair false fast_core pk0 sk1 (r_oid r) rnd = Ok (0%Z, pk1, sk1') /\
    keypair false fast_core pk0 sk2 (r_oid r) rnd = Ok (0%Z, pk2, sk2') /\ sk1' <> sk2'.
Proof.
  set (N0 := 4 + fast_size r).
  assert (Hb : forall b k, (b < 256)%N -> bytes_ok (repeat b k)) by (intros b k Hb; apply Forall_forall; intros x Hx; apply repeat_spec in Hx; now subst).
  exists (repeat 0%N (4 + pk_size r)), (repeat 0%N N0), (repeat 1%N N0). rewrite !repeat_length. repeat split.
  intros rnd.
  destruct (fast_keypair_leaves false r Hr (repeat 0%N (4 + pk_size r)) (repeat 0%N N0) rnd eq_refl HE (repeat_length _ _) (repeat_length _ _) (Hb 0%N _ eq_refl)) as (p1 & s1 & K1 & F1).
  destruct (fast_keypair_leaves false r Hr (repeat 0%N (4 + pk_size r)) (repeat 1%N N0) rnd eq_refl HE (repeat_length _ _) (repeat_length _ _) (Hb 1%N _ eq_refl)) as (p2 & s2 & K2 & F2).
  exists p1, p2, s1, s2. split; [exact K1|]. split; [exact K2|]. intros ->. rewrite F1 in F2.
  assert (A : forallb (fun x => (1 <=? (sp_th (row_sp x) + 1) * r_n x) && (1 <=? 4 + fast_size x - (4 + sk_size x)))%bool (rows false) = true) by (vm_compute; reflexivity).
  rewrite forallb_forall in A. specialize (A r Hr). apply andb_prop in A. destruct A as [A1 A2]. apply Nat.leb_le in A1, A2.
  assert (N0 - (4 + sk_size r) >= 1) by (unfold N0; lia).
  assert (Hs : forall b N1 k, skipn k (repeat b N1) = repeat (b : N) (N1 - k)).
  { clear. intros b N1 k. revert N1. induction k; intros [|N1]; cbn [skipn repeat Nat.sub]; auto. }
  rewrite !Hs in F2. destruct (N0 - (4 + sk_size r)) as [|q]; [lia|]. destruct ((sp_th (row_sp r) + 1) * r_n r) as [|q2]; [lia|].
  cbn in F2. discriminate.
Qed.
End XmssInst.
