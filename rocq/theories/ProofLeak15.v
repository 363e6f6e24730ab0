(** The multi-tree fast core, whole life of a key: every trace but the last is determined by public data. *)
From Coq Require Import ZArith.
From Verif Require Import Base Lib SpecRfc ModelUtils ModelParams ModelHash ModelWots ModelCommons ModelCore ModelCoreFast ModelXmss
  ProofUtils ProofHash ProofWots ProofCommons ProofTree ProofCore SpecParams SpecApi ProofParams ProofApi ProofHistory SpecFast ModelLeak ModelLeakFast SpecLeak
  ProofLeak ProofLeak2 ProofLeak3 ProofLeak5 ProofLeak6 ProofLeak7 ProofLeak8 ProofLeak9 ProofLeak10 ProofLeak11 ProofLeak12 ProofLeak13 ProofLeak14 ProofFast3 ProofMain
  ProofMt1 ProofMt5 ProofMt7.

(** the chain lengths of one layer, read from a signed message *)
Definition layer_lengths (P : sparams) (rt seed sig m : bytes) (i : nat) : list nat :=
  let idx := os2ip (firstn (sp_ib P) sig) in
  let M := H_msg P (firstn (sp_n P) (skipn (sp_ib P) sig)) rt idx m in
  wots_digits P (mt_climb P seed idx M 0 i (skipn (sp_ib P + sp_n P) sig)).

Section Refine.
Context {E : Env}.
Variable p : xmss_params.
Variable Hf : bytes -> bytes.
Hypothesis Hp : params_ok p.
Hypothesis HH : hash_total p Hf.
Notation P := (sp_of p Hf).
Notation n := (p_n p).
Notation ib := (index_bytes p).
Lemma layer_public sks prfk rt seed idx m i : length sks = n -> length prfk = n -> length rt = n -> length seed = n ->
  (idx < 2 ^ N.of_nat (full_height p))%N -> i <= p_d p ->
  layer_lengths P rt seed (mt_sign P sks prfk rt seed idx m) m i =
  wots_digits P (layer_msg P sks seed (H_msg P (PRF P prfk (toByte idx 32)) rt idx m) idx i).
Proof.
  intros Hs1 Hs2 Hs3 Hs4 Hidx Hi. pose proof (po_ib_le p Hp) as [Hib8 Hibh]. pose proof (pow2_lt_256 _ _ Hibh) as Hp256.
  set (r := PRF P prfk (toByte idx 32)). assert (Hr : length r = n) by apply (PRF_length p Hf HH).
  set (M := H_msg P r rt idx m).
  assert (Esig : mt_sign P sks prfk rt seed idx m = toByte idx ib ++ r ++ concat (map (layer_sig P sks seed M idx) (seq 0 (p_d p)))).
  { unfold mt_sign. cbv zeta. replace (sp_ib P) with ib by exact (po_ib p Hp). reflexivity. }
  unfold layer_lengths. rewrite Esig. replace (sp_ib P) with ib by exact (po_ib p Hp). change (sp_n P) with n.
  rewrite firstn_app_len by (now rewrite toByte_length). rewrite os2ip_toByte, N.mod_small by lia.
  rewrite (skipn_app_len (toByte idx ib)) by (now rewrite toByte_length). rewrite (firstn_app_len r) by (now rewrite Hr).
  rewrite app_assoc. rewrite (skipn_app_len (toByte idx ib ++ r)) by (rewrite app_length, toByte_length; lia). fold M. cbv zeta. f_equal.
  pose proof (mt_climb_layers p Hf Hp HH sks seed M idx (concat (map (layer_sig P sks seed M idx) (seq (0 + i) (p_d p - i)))) Hs1 Hs4 i 0) as Hc.
  cbn [layer_msg Nat.add] in Hc. rewrite <- Hc. f_equal.
  replace (p_d p) with (i + (p_d p - i)) at 1 by lia. rewrite seq_app, map_app, concat_app. reflexivity.
Qed.
End Refine.

Section Mt.
Context {E : Env}.
Hypothesis HE : env_ok E.
Variable r : row.
Hypothesis Hr : In r (rows true).
Notation p := (row_params r (sk_fast r)).
Notation P := (row_sp r).
Notation n := (r_n r).
Notation ib := (idx_size r).

Lemma mt_row_chains idx a b rt seed ext sm smlen m o : length a = n -> length b = n -> length rt = n -> length seed = n ->
  goodm r a seed idx ext -> (idx + 1 < fast_limit r)%N ->
  outcome (fast_sign_seen true (secret_key r idx a b rt seed ++ ext) sm smlen m) = Ok o ->
  chains (trace (fast_sign_seen true (secret_key r idx a b rt seed ++ ext) sm smlen m)) =
  map (chain_trace P) (wots_digits P (H_msg P (PRF P b (toByte idx 32)) rt idx m)) ++
  concat (map (fun c => map (chain_trace P) (roll_digits p (row_hash r) a seed idx c)) (seq 0 (r_d r))).
Proof.
  intros Ha Hb Hc Hd (ss & ws & Hs & _ & ->) Hi Ho.
  assert (Hi' : (idx + 1 < 2 ^ N.of_nat (r_h r))%N) by (pose proof (mr_lim r Hr) as X; clear - Hi X; lia).
  rewrite <- (layout_ext r) in Ho |- *. set (k := sk_layout (toByte idx ib) a b rt seed _) in *.
  unfold fast_sign_seen, sign_wrapper_l in Ho |- *.
  pose proof (parse_accept_fast true r uninit_params Hr) as Hpo. unfold ProofParams.parse_oid in Hpo.
  rewrite (bind_oc (silent _) _ _ (row_oid_bytes true r k Hr)) in Ho. eapply ch_ok; [apply (row_oid_bytes true r _ Hr)|cbv beta in Ho |- *].
  rewrite (bind_oc (silent _) _ _ Hpo) in Ho. eapply ch_ok; [exact Hpo|cbv beta iota in Ho |- *].
  change XMSS_OID_LEN with 4 in *. rewrite (skipn_app_len (toByte (r_oid r) 4)) in Ho |- * by (now rewrite toByte_length).
  destruct (outcome (fast_xmssmt_core_sign_l p k sm smlen m)) as [o'| |] eqn:Eo; unfold lbind at 1 in Ho; cbn [outcome] in Ho; rewrite Eo in Ho; try discriminate.
  pose proof (mt_sign_chains p (row_hash r) (fp_ok true r Hr) (fp_hash HE true r Hr) (fp_kH true r Hr) (mr_H3 r Hr) (mr_HU r Hr) a b rt seed ss ws idx sm m smlen o') as H1.
  cbv zeta in H1. rewrite row_n, (fp_ib r) in H1. rewrite (fp_h r) in H1 at 1. rewrite sp_of_row in H1. rewrite row_dd in H1 at 2. fold k in H1.
  rewrite <- H1 by (assumption || exact (mr_win r Hr idx Hi)). rewrite <- (app_nil_r (chains (trace (fast_xmssmt_core_sign_l _ _ _ _ _)))).
  eapply ch_bind; [exact Eo|reflexivity|reflexivity].
Qed.
Lemma mt_row_kp_chains pk sk u : length pk = 4 + pk_size r -> length sk = 4 + fast_size r -> bytes_ok sk ->
  let sks := map u (seq 0 n) in let seed := map u (seq (2 * n) n) in
  chains (trace (fast_keypair_seen true pk sk (r_oid r) u)) =
  concat (map (fun i => map (chain_trace P) (wots_digits P (root P sks seed (N.of_nat i) 0))) (seq 0 (r_d r - 1))).
Proof.
  intros Hpk Hsk Hb sks seed. destruct (mkey HE r Hr pk sk u Hpk Hsk Hb) as (ext & _ & Hk). rewrite <- seen_fast_keypair in Hk.
  match type of Hk with _ = Ok ?o => set (out := o) in Hk; clearbody out end.
  pose proof (fast_size_eq true r Hr) as Hfs. unfold pk_size in Hpk.
  unfold fast_keypair_seen, keypair_wrapper_l in Hk |- *.
  pose proof (parse_accept_fast true r uninit_params Hr) as Hpo. unfold ProofParams.parse_oid in Hpo.
  rewrite (bind_oc (silent _) _ _ Hpo) in Hk. eapply ch_ok; [exact Hpo|cbv beta iota in Hk |- *].
  assert (Hw : forall b, 4 <= length b -> wr b 0 (oid_to_bytes (r_oid r)) = Ok (toByte (r_oid r) 4 ++ skipn 4 b)).
  { intros b' Hb'. unfold wr. rewrite oid_to_bytes_spec. rewrite toByte_length. cbn [Nat.add]. destruct (Nat.leb_spec 4 (length b')); [reflexivity|lia]. }
  eapply ch_drop; [reflexivity|exact Hk|clear Hk; intros k1 Hs Hk]. cbn [wr_l outcome] in Hs. rewrite Hw in Hs by lia. match type of Hs with Ok ?v = Ok k1 => assert (Ek : k1 = v) by congruence; clear Hs; subst k1 end.
  eapply ch_drop; [reflexivity|exact Hk|clear Hk; intros k1 Hs Hk]. cbn [wr_l outcome] in Hs. rewrite Hw in Hs by lia. match type of Hs with Ok ?v = Ok k1 => assert (Ek : k1 = v) by congruence; clear Hs; subst k1 end.
  change XMSS_OID_LEN with 4 in *. rewrite !(skipn_app_len (toByte (r_oid r) 4)) in Hk |- * by (now rewrite toByte_length).
  apply bind_inv in Hk. destruct Hk as (v & Hv & _). rewrite <- (app_nil_r (concat _)).
  pose proof (mt_kp_chains p (row_hash r) (fp_ok true r Hr) (fp_hash HE true r Hr) (fp_kH true r Hr) (mr_H3 r Hr) (mr_HU r Hr) (skipn 4 pk) (skipn 4 sk) u) as H1.
  cbv zeta in H1. rewrite row_n, (fp_ib r), sp_of_row, row_dd, !skipn_length in H1.
  eapply ch_bind; [exact Hv|apply H1; [lia|now apply bytes_ok_skipn|lia]|].
  destruct v as [[? ?] ?]. reflexivity.
Qed.

(** *** the same from the signed messages *)
Notation layer_pub pk sm := (layer_lengths P (firstn n (skipn 4 pk)) (skipn (4 + n) pk) (firstn (sig_size r) sm) (skipn (sig_size r) sm)).
Definition rolls_pub (idx : N) (c : nat) : bool := (Datatypes.S c <? r_d r) && ((idx + 1) mod 2 ^ N.of_nat (sp_th P * Datatypes.S c) =? 0)%N.
Definition lengths_mt (pk sm sm' : bytes) : list nat :=
  layer_pub pk sm 0 ++
  concat (map (fun c => if rolls_pub (os2ip (firstn ib sm)) c then layer_pub pk sm' (Datatypes.S c) else []) (seq 0 (r_d r))).
Definition lengths_kp (pk sm : bytes) : list nat := concat (map (fun i => layer_pub pk sm (Datatypes.S i)) (seq 0 (r_d r - 1))).

Lemma layer_of a b c d i m j : length a = n -> length b = n -> length c = n -> length d = n -> (i < 2 ^ N.of_nat (r_h r))%N -> j <= r_d r ->
  layer_pub (public_key r c d) (mt_sign P a b c d i m ++ m) j =
  wots_digits P (layer_msg P a d (H_msg P (PRF P b (toByte i 32)) c i m) i j).
Proof.
  intros Ha Hb Hc Hd Hi Hj. pose proof (sig_len HE true r Hr a b c d i m Ha Hb Hc Hd) as Hs.
  unfold public_key. rewrite (skipn_app_len (toByte (r_oid r) 4)) by (now rewrite toByte_length). rewrite (firstn_app_len c) by lia.
  rewrite (app_assoc _ c d), (skipn_app_len (toByte (r_oid r) 4 ++ c)) by (rewrite app_length, toByte_length; lia).
  rewrite (firstn_app_len (mt_sign P a b c d i m)), (skipn_app_len (mt_sign P a b c d i m)) by lia.
  pose proof (layer_public p (row_hash r) (fp_ok true r Hr) (fp_hash HE true r Hr) a b c d i m j) as H.
  rewrite row_n, (fp_h r), sp_of_row, row_dd in H. now apply H.
Qed.
Lemma idx_of a b c d i m : length b = n -> (i < 2 ^ N.of_nat (r_h r))%N -> os2ip (firstn ib (mt_sign P a b c d i m ++ m)) = i.
Proof.
  intros Hb Hi. pose proof (po_ib_le p (fp_ok true r Hr)) as [Hib8 Hibh]. rewrite (fp_ib r), (fp_h r) in *. pose proof (pow2_lt_256 _ _ Hibh) as Hp256.
  unfold mt_sign. cbv zeta. change (sp_ib P) with ib. rewrite <- !app_assoc. rewrite (firstn_app_len (toByte i ib)) by (now rewrite toByte_length). rewrite os2ip_toByte, N.mod_small by lia. reflexivity.
Qed.
Lemma roll_of a b c d i m j : length a = n -> length b = n -> length c = n -> length d = n -> (i + 1 < 2 ^ N.of_nat (r_h r))%N -> j < r_d r ->
  (if rolls_pub i j then layer_pub (public_key r c d) (mt_sign P a b c d (i + 1) m ++ m) (Datatypes.S j) else []) =
  roll_digits p (row_hash r) a d i j.
Proof.
  intros Ha Hb Hc Hd Hi Hj. unfold roll_digits, rolls, rolls_pub. rewrite row_dd, (fp_th r), sp_of_row.
  destruct (_ && _); [|reflexivity]. rewrite layer_of by (assumption || lia). cbn [layer_msg]. unfold tree_of, ProofMt1.hi. do 2 f_equal. change (sp_th P) with (r_h r / r_d r). now rewrite ?Nat.add_1_r.
Qed.

(** one call, given the next signed message *)
Lemma mt_call_public i a b c d ext sm smlen m o x : length a = n -> length b = n -> length c = n -> length d = n ->
  goodm r a d i ext -> (i + 1 < fast_limit r)%N ->
  ((exists m', x = mt_sign P a b c d (i + 1) m' ++ m') \/ ((i + 1) mod 2 ^ N.of_nat (sp_th P) <> 0)%N) ->
  outcome (fast_sign_seen true (secret_key r i a b c d ++ ext) sm smlen m) = Ok o ->
  chains (trace (fast_sign_seen true (secret_key r i a b c d ++ ext) sm smlen m)) =
  map (chain_trace P) (lengths_mt (public_key r c d) (mt_sign P a b c d i m ++ m) x).
Proof.
  intros Ha Hb Hc Hd HG Hi Hx Ho. pose proof (mr_lim r Hr) as Hl.
  rewrite (mt_row_chains i a b c d ext sm smlen m o Ha Hb Hc Hd HG Hi Ho).
  unfold lengths_mt. rewrite layer_of by (assumption || lia). cbn [layer_msg]. rewrite map_app. f_equal.
  rewrite idx_of by (assumption || lia). rewrite map_concat_map. f_equal. apply map_ext_in. intros j Hj. apply in_seq in Hj. f_equal.
  destruct Hx as [(m' & ->)|Hx]; [symmetry; apply roll_of; assumption || lia|].
  assert (F : rolls_pub i j = false).
  { unfold rolls_pub. apply andb_false_intro2. apply N.eqb_neq. intros E0. apply Hx. apply N.mod_divide in E0; [|apply N.pow_nonzero; discriminate].
    apply N.mod_divide; [apply N.pow_nonzero; discriminate|]. eapply N.divide_trans; [|exact E0].
    exists (2 ^ N.of_nat (sp_th P * j))%N. rewrite <- N.pow_add_r. f_equal. lia. }
  pose proof (roll_of a b c d i [] j Ha Hb Hc Hd ltac:(lia) ltac:(lia)) as R. rewrite F in R |- *. now rewrite <- R.
Qed.

Definition next_to (l : list bytes) : list (bytes * bytes) := combine l (tl l ++ [[]]).
Lemma mt_life_chains a b c d : length a = n -> length b = n -> length c = n -> length d = n ->
  forall cs i ext sk' os, goodm r a d i ext -> (i + N.of_nat (length cs) < fast_limit r)%N -> Forall (call_ok r) cs ->
  sign_run true fast_core (secret_key r i a b c d ++ ext) cs = Ok (sk', os) ->
  Forall2 (fun q o => length (signed_message o) = sig_size r + length (c_m q)) cs os /\
  (forall q cs', cs = q :: cs' -> exists os', map signed_message os = (mt_sign P a b c d i (c_m q) ++ c_m q) :: os') /\
  forall t w, nth_error (watch (fast_sign_seen true) (secret_key r i a b c d ++ ext) cs) t = Some w ->
  S t < length cs \/ ((i + N.of_nat (S t)) mod 2 ^ N.of_nat (sp_th P) <> 0)%N ->
  nth_error (map (fun q => map (chain_trace P) (lengths_mt (public_key r c d) (fst q) (snd q))) (next_to (map signed_message os))) t = Some (chains w).
Proof.
  intros Ha Hb Hc Hd. induction cs as [|q cs IH]; intros i ext sk' os HG Hi Hcs Hrun; [injection Hrun as _ <-; split; [constructor|]; split; [discriminate|]; intros [|t] w; discriminate|].
  inversion Hcs as [|q' cs' Hq Hqs]; subst. cbn [length] in Hi. cbn [sign_run] in Hrun. cbn [watch].
  destruct (fstep_live true r Hr a b c d (goodm r a d) (fast_limit r) (mstep HE r Hr a b c d Ha Hb Hc Hd) i ext q HG ltac:(lia) Hq) as (ext' & HG' & Hs).
  pose proof (seen_fast_sign true (secret_key r i a b c d ++ ext) (c_sm q) (c_smlen q) (c_m q)) as Ho. rewrite Hs in Ho, Hrun. rewrite Ho. cbn [bind so_sk] in Hrun |- *.
  destruct (sign_run true fast_core (secret_key r (i + 1) a b c d ++ ext') cs) as [[sk1 os1]| |] eqn:Er; try discriminate. cbn [bind] in Hrun. match type of Hrun with Ok (_, ?l) = Ok (_, os) => assert (Eo : os = l) by congruence; clear Hrun; subst os end.
  destruct (IH (i + 1)%N ext' sk1 os1 HG' ltac:(lia) Hqs Er) as (IH1 & IH2 & IH3).
  pose proof (sig_len HE true r Hr a b c d i (c_m q) Ha Hb Hc Hd) as Hsl.
  assert (Es : signed_message (mkSign 0 (secret_key r (i + 1) a b c d ++ ext') (mt_sign P a b c d i (c_m q) ++ c_m q ++ skipn (sig_size r + length (c_m q)) (c_sm q)) (sig_size r + length (c_m q))) = mt_sign P a b c d i (c_m q) ++ c_m q).
  { unfold signed_message. cbn [so_sm so_smlen]. rewrite (app_assoc _ (c_m q)), (firstn_app_len (mt_sign P a b c d i (c_m q) ++ c_m q)) by (rewrite app_length; lia). reflexivity. }
  split.
  { constructor; [|exact IH1]. cbv beta. rewrite Es, app_length. lia. }
  cbn [map].
  rewrite Es. split; [intros q0 cs0 Eq; injection Eq as <- _; eexists; reflexivity|].
  intros [|t] w Hw Ht.
  - cbn [nth_error] in Hw. apply (f_equal (fun z => match z with Some z => z | None => [] end)) in Hw. cbv beta iota in Hw. subst w.
    unfold next_to. cbn [tl]. destruct cs as [|q1 cs].
    + inversion IH1; subst. cbn [map app combine nth_error fst snd]. f_equal. symmetry.
      eapply mt_call_public; try assumption; [|exact Ho]. right. destruct Ht as [Ht|Ht]; [cbn [length] in Ht; lia|exact Ht].
    + destruct (IH2 q1 cs eq_refl) as (os' & ->). cbn [app combine map nth_error fst snd]. f_equal. symmetry.
      eapply mt_call_public; try assumption; [lia| |exact Ho]. left. eexists. reflexivity.
  - cbn [nth_error] in Hw. specialize (IH3 t w Hw).
    replace (nth_error _ (Datatypes.S t)) with (nth_error (map (fun q => map (chain_trace P) (lengths_mt (public_key r c d) (fst q) (snd q))) (next_to (map signed_message os1))) t).
    + apply IH3. destruct Ht as [Ht|Ht]; [left; cbn [length] in Ht; lia|right]. replace (i + 1 + N.of_nat (S t))%N with (i + N.of_nat (S (S t)))%N by lia. exact Ht.
    + unfold next_to. cbn [tl]. destruct (map signed_message os1) as [|s1 l]; [destruct t; reflexivity|]. reflexivity.
Qed.
End Mt.
