(** test/xmss.c compiled with XMSS_TEST_INVALIDSIG: one bit flipped in each hash of a signature. *)
From Coq Require Import String.
From Verif Require Import Base Lib ModelUtils ModelParams ModelHash ModelWots ModelCommons ModelCore ModelCoreFast ModelXmss ModelUi ModelTests
  SpecRfc SpecParams SpecApi SpecComp SpecSec SpecForge SpecFast SpecLast SpecTests
  ProofUtils ProofHash ProofWots ProofCommons ProofCore ProofParams ProofApi ProofHistory ProofMain ProofMain2 ProofUi ProofUi2 ProofFast1 ProofFast3 ProofFast4 ProofFast5 ProofFast6 ProofFast7
  ProofMt7 ProofSec ProofSec2 ProofForge ProofForge2 ProofUi4 ProofUi5 ProofLast ProofWotsAny ProofTests.

Lemma rdc_mid (X Z : bytes) y : rdc (X ++ y :: Z) (List.length X) = Ok y.
Proof. unfold rdc. rewrite nth_error_app2, Nat.sub_diag by lia. reflexivity. Qed.
Lemma wrc_mid (X Z : bytes) y v : wrc (X ++ y :: Z) (List.length X) v = Ok (X ++ v :: Z).
Proof.
  unfold wrc. rewrite app_length. cbn [List.length]. destruct (Nat.ltb_spec (List.length X) (List.length X + S (List.length Z))) as [_|?]; [|lia]. f_equal.
  induction X as [|a X IH]; [reflexivity|]. cbn [app List.length upd]. now rewrite IH.
Qed.
Lemma rdc_mid' (X Z : bytes) y k : k = List.length X -> rdc (X ++ y :: Z) k = Ok y.
Proof. intros ->. apply rdc_mid. Qed.
Lemma wrc_mid' (X Z : bytes) y v k : k = List.length X -> wrc (X ++ y :: Z) k v = Ok (X ++ v :: Z).
Proof. intros ->. apply wrc_mid. Qed.
Lemma split_at (s : bytes) pos : pos < List.length s -> s = firstn pos s ++ nth pos s 0%N :: skipn (S pos) s.
Proof.
  revert pos. induction s as [|a s IH]; intros pos Hp; cbn [List.length] in Hp; [lia|]. destruct pos as [|pos]; [reflexivity|].
  cbn [firstn nth skipn app]. f_equal. apply IH. lia.
Qed.
Lemma flipped_at_length pos s : pos < List.length s -> List.length (flipped_at pos s) = List.length s.
Proof. intros Hp. unfold flipped_at. rewrite !app_length, firstn_length, skipn_length. cbn [List.length]. lia. Qed.
Lemma flipped_at_neq pos s : pos < List.length s -> flipped_at pos s <> s.
Proof.
  intros Hp He. unfold flipped_at in He. rewrite (split_at s pos Hp) in He at 4. apply app_inv_head in He. injection He as He.
  assert (Hb : N.testbit (N.lxor (nth pos s 0%N) 1) 0 = negb (N.testbit (nth pos s 0%N) 0)) by (rewrite N.lxor_spec; destruct (N.testbit (nth pos s 0%N) 0); reflexivity).
  rewrite He in Hb. destruct (N.testbit (nth pos s 0%N) 0); discriminate.
Qed.
Lemma lxor1_byte y : (y < 256)%N -> (N.lxor y 1 < 256)%N.
Proof.
  intros Hy. assert (Hb : bytes_ok (flipped [y])) by (apply flipped_bytes; [repeat constructor; exact Hy|discriminate]).
  change [y] with ([] ++ [y]) in Hb. rewrite flipped_snoc in Hb. inversion Hb; assumption.
Qed.
Lemma flipped_at_bytes pos s : bytes_ok s -> bytes_ok (flipped_at pos s).
Proof.
  intros Hb. unfold flipped_at. apply bytes_ok_app. split; [now apply bytes_ok_firstn|]. apply bytes_ok_app. split; [|now apply bytes_ok_skipn].
  constructor; [|constructor]. apply lxor1_byte. destruct (Nat.lt_ge_cases pos (List.length s)) as [Hl|Hl].
  - unfold bytes_ok in Hb. rewrite Forall_forall in Hb. apply Hb. now apply nth_In.
  - rewrite nth_overflow by exact Hl. reflexivity.
Qed.
Lemma flipped_at_app pos s m : pos < List.length s -> flipped_at pos (s ++ m) = flipped_at pos s ++ m.
Proof.
  intros Hp. unfold flipped_at. rewrite firstn_app, skipn_app. replace (pos - List.length s) with 0 by lia. replace (S pos - List.length s) with 0 by lia.
  cbn [firstn skipn]. rewrite app_nil_r, app_nth1 by exact Hp. rewrite <- !app_assoc. reflexivity.
Qed.
Lemma flipped_at_front pos s k : k <= pos -> pos < List.length s -> firstn k (flipped_at pos s) = firstn k s.
Proof. intros Hk Hp. unfold flipped_at. rewrite firstn_app, firstn_firstn, firstn_length. replace (k - Nat.min pos (List.length s)) with 0 by lia. cbn [firstn]. rewrite app_nil_r. f_equal. lia. Qed.
Lemma flipped_at_back pos s k : pos < k -> pos < List.length s -> skipn k (flipped_at pos s) = skipn k s.
Proof.
  intros Hk Hp. unfold flipped_at. rewrite skipn_app, firstn_length, (skipn_all2 (firstn pos s)) by (rewrite firstn_length; lia). cbn [app].
  replace (k - Nat.min pos (List.length s)) with (S (k - S pos)) by lia. rewrite skipn_cons, skipn_skipn. f_equal. lia.
Qed.

Section Tests.
Context {E : Env}.
Hypothesis HE : env_ok E.
Variables (mt : bool) (r : row).
Hypothesis Hr : In r (rows mt).
Notation P := (row_sp r).
Notation ib := (idx_size r).
Notation n := (r_n r).
Notation top := (2 ^ N.of_nat (r_h r))%N.
Variables (core : core) (lim : N) (size : nat).
Hypothesis Hs : signer r core lim size.

(** an honest signature with one bit of one hash flipped *)
Lemma hash_flip_opens a b ct d m nsig i q c mbuf mlen oo : fields r a b ct d -> ct = mt_root P a d -> bytes_ok m -> (N.of_nat nsig <= top)%N -> i < nsig -> a_core c ->
  q * n < sig_size r -> sig_size r + List.length m <= List.length mbuf ->
  sign_open mt c mbuf mlen (flipped_at (q * n) (mt_sign P a b ct d (N.of_nat i) m) ++ m) (public_key r ct d) = Ok oo -> oo_rc oo = 0%Z -> hash_flip_breaks P a b ct d m nsig.
Proof.
  intros Hf Hct Bm Hn Hi Hc Hq Lb Hop Hrc.
  set (sg := mt_sign P a b ct d (N.of_nat i) m) in *. set (bad := flipped_at (q * n) sg) in *.
  assert (Lj : List.length sg = sig_size r) by apply (mt_sign_len HE mt r Hr).
  assert (Lbad : List.length bad = sig_size r) by (unfold bad; rewrite flipped_at_length by lia; exact Lj).
  assert (Bbad : bytes_ok bad) by (apply flipped_at_bytes, (mt_sign_bytes HE mt r Hr)).
  destruct (test_gave HE mt r Hr 0%N a b ct d m nsig) as (cs & os & Hlen & Hcs & Hg & Hps).
  pose proof (pk_is_key r a b ct d Hf) as Hkey.
  assert (Hib : ib + n <= sig_size r) by (unfold sig_size, sp_sig_bytes, idx_size; change (sp_n P) with n; lia).
  assert (Lsm : sig_size r <= List.length (bad ++ m)) by (rewrite app_length; lia).
  assert (Bsm : bytes_ok (bad ++ m)) by (apply bytes_ok_app; split; assumption).
  assert (Lmb : List.length (bad ++ m) <= List.length mbuf) by (rewrite app_length; lia).
  pose proof (accepted HE mt r Hr c mbuf mlen (bad ++ m) _ oo Hc Hkey Lsm Bsm Lmb Hop Hrc) as Hv.
  assert (Hrt : firstn n (skipn 4 (public_key r ct d)) = ct).
  { destruct Hf as [[La [Lb' [Lc Ld]]] _]. unfold public_key. rewrite skipn_app_len by (now rewrite toByte_length). now apply firstn_app_len. }
  assert (Hsd : skipn (4 + n) (public_key r ct d) = d).
  { destruct Hf as [[La [Lb' [Lc Ld]]] _]. unfold public_key. rewrite app_assoc. apply skipn_app_len. rewrite app_length, toByte_length. lia. }
  rewrite Hrt, Hsd, firstn_app_len, skipn_app_len in Hv by (symmetry; exact Lbad).
  destruct (forgery_breaks HE mt r Hr a b ct d Hf Hct cs os c mbuf mlen (bad ++ m) oo) as [F1 F2]; try assumption.
  { rewrite Hlen. exact Hn. }
  rewrite firstn_app_len, skipn_app_len in F1, F2 by (symmetry; exact Lbad).
  assert (Hk : sm_index r (bad ++ m) = sig_index P bad).
  { unfold sm_index, sig_index. change (sp_ib P) with ib. rewrite firstn_app. replace (ib - List.length bad) with 0 by lia. cbn [firstn]. now rewrite app_nil_r. }
  rewrite Hk in F1, F2.
  exists i, q. split; [exact Hi|]. split; [exact Hq|]. cbv zeta. change (sp_n P) with n. fold sg. fold bad. split; [exact Hv|].
  change (sp_h P) with (r_h r). set (k := sig_index P bad) in *.
  destruct (N.lt_ge_cases k top) as [Hlt|Hge]; [right; split; [exact Hlt|]|left; split; [exact Hge|apply F1; exact Hge]].
  assert (Hsgi : sig_index P sg = N.of_nat i) by (apply (honest_index HE mt r Hr); lia).
  destruct (list_eq_dec N.eq_dec (mt_sign P a b ct d k m) bad) as [Heq|Hne].
  - left.
    assert (Hki : k <> N.of_nat i) by (intros Hki; rewrite Hki in Heq; fold sg in Heq; symmetry in Heq; revert Heq; apply flipped_at_neq; lia).
    assert (Hpos : q * n < ib).
    { destruct (Nat.lt_ge_cases (q * n) ib) as [Hp|Hp]; [exact Hp|]. exfalso. apply Hki. rewrite <- Hsgi. unfold k, sig_index. change (sp_ib P) with ib. f_equal.
      apply flipped_at_front; lia. }
    split.
    + intros Ht. apply Hki.
      assert (Hbig : forall x, (x < top)%N -> (x < 256 ^ N.of_nat 32)%N).
      { intros x Hx. eapply N.lt_le_trans; [exact Hx|]. rewrite pow256_pow2. apply N.pow_le_mono_r; [discriminate|]. pose proof (idx_size_le mt r Hr). lia. }
      eapply toByte_inj; [apply Hbig; exact Hlt|apply Hbig; lia|exact Ht].
    + rewrite <- (honest_R HE mt r Hr a b ct d k m), <- (honest_R HE mt r Hr a b ct d (N.of_nat i) m). fold sg. rewrite Heq. unfold sig_R. change (sp_ib P) with ib.
      f_equal. apply flipped_at_back; lia.
  - right. destruct (F2 Hlt m Bm) as [F|F].
    + intros He. apply app_inv_tail in He. exact (Hne He).
    + intros x Hx. rewrite (Hcs _ _ Hx). reflexivity.
    + left. exact F.
    + right. rewrite <- Hps. exact F.
Qed.

(** the loop over the hashes *)
Lemma flip_hashes_eval a b ct d m nsig i skb : fields r a b ct d -> ct = mt_root P a d -> List.length m = 32 -> bytes_ok m -> (N.of_nat nsig <= top)%N -> i < nsig ->
  let sg := mt_sign P a b ct d (N.of_nat i) m in
  forall k q t, t_sm t = sg ++ m -> t_smlen t = sig_size r + 32 -> List.length (t_mout t) = sig_size r + 32 -> sig_size r - q * n < k ->
  exists t', flip_hashes mt core (row_params r skb) (public_key r ct d) k (q * n) t = Ok t' /\ t_sk t' = t_sk t /\ t_sm t' = sg ++ m /\ t_smlen t' = sig_size r + 32 /\
    List.length (t_mout t') = sig_size r + 32 /\ (t_ret t' = t_ret t /\ (forall q', q <= q' -> q' * n < sig_size r -> mt_verify P ct d (flipped_at (q' * n) sg) m = false) \/ t_ret t' = (-1)%Z /\ hash_flip_breaks P a b ct d m nsig).
Proof.
  intros Hf Hct Lm Bm Hn Hi sg. pose proof Hf as [[La [Lb [Lc Ld]]] [Ba [Bb [Bc Bd]]]].
  assert (Lsg : List.length sg = sig_size r) by apply (mt_sign_len HE mt r Hr).
  assert (Bsg : bytes_ok sg) by apply (mt_sign_bytes HE mt r Hr).
  assert (Hn0 : 0 < n) by (destruct (row_n_fn mt r Hr) as [[Hx _]|[Hx|[Hx _]]]; rewrite Hx; lia).
  assert (Hk : key_of r (pk_size r) (public_key r ct d)) by (apply (pk_is_key r a b ct d Hf)).
  intros k. induction k as [|k IH]; intros q t Et El Em Hm; [lia|].
  cbn [flip_hashes]. rewrite El. unfold XMSS_MLEN. replace (sig_size r + 32 - 32) with (sig_size r) by lia.
  destruct (Nat.ltb_spec (q * n) (sig_size r)) as [Hq|Hq].
  2: { exists t. repeat split; try assumption. left. split; [reflexivity|]. intros q' Hq' Hq''. exfalso. apply (Nat.lt_irrefl (sig_size r)). eapply Nat.le_lt_trans; [exact Hq|]. eapply Nat.le_lt_trans; [|exact Hq'']. apply Nat.mul_le_mono_r. exact Hq'. }
  set (bad := flipped_at (q * n) sg).
  assert (Lbad : List.length bad = sig_size r) by (unfold bad; rewrite flipped_at_length by lia; exact Lsg).
  assert (Bbad : bytes_ok bad) by (apply flipped_at_bytes; exact Bsg).
  assert (Lp : List.length (firstn (q * n) (sg ++ m)) = q * n) by (rewrite firstn_length, app_length; lia).
  assert (S1 : rdc (sg ++ m) (q * n) = Ok (nth (q * n) (sg ++ m) 0%N)).
  { rewrite (split_at (sg ++ m) (q * n)) at 1 by (rewrite app_length; lia). apply rdc_mid'. symmetry. exact Lp. }
  assert (S2 : wrc (sg ++ m) (q * n) (N.lxor (nth (q * n) (sg ++ m) 0%N) 1) = Ok (bad ++ m)).
  { unfold bad. rewrite <- flipped_at_app by lia. unfold flipped_at. rewrite (split_at (sg ++ m) (q * n)) at 1 by (rewrite app_length; lia). apply wrc_mid'. symmetry. exact Lp. }
  assert (S3 : rdc (bad ++ m) (q * n) = Ok (N.lxor (nth (q * n) (sg ++ m) 0%N) 1)).
  { unfold bad. rewrite <- flipped_at_app by lia. unfold flipped_at. apply rdc_mid'. symmetry. exact Lp. }
  assert (S4 : forall v, wrc (bad ++ m) (q * n) v = Ok (firstn (q * n) (sg ++ m) ++ v :: skipn (S (q * n)) (sg ++ m))).
  { intros v. unfold bad. rewrite <- flipped_at_app by lia. unfold flipped_at. apply wrc_mid'. symmetry. exact Lp. }
  rewrite Et, S1, bind_ok, S2, bind_ok. rewrite rd_whole by (rewrite app_length; lia). rewrite bind_ok.
  destruct (open_decides HE mt r core (t_mout t) (t_mlen t) (bad ++ m) _ Hr (signer_core r core lim size Hs) Hk) as (oo & O & LO & HT & _);
    [rewrite app_length; lia|apply bytes_ok_app; split; assumption|rewrite app_length; lia|].
  assert (Hrt : firstn n (skipn 4 (public_key r ct d)) = ct).
  { unfold public_key. rewrite skipn_app_len by (now rewrite toByte_length). now apply firstn_app_len. }
  assert (Hsd : skipn (4 + n) (public_key r ct d) = d).
  { unfold public_key. rewrite app_assoc. apply skipn_app_len. rewrite app_length, toByte_length. lia. }
  rewrite Hrt, Hsd, firstn_app_len, skipn_app_len in HT by (symmetry; exact Lbad).
  change (ui_open_fn mt core) with (sign_open mt core). rewrite O, bind_ok, S3, bind_ok, S4, bind_ok, lxor_twice, <- split_at by (rewrite app_length; lia).
  destruct (Z.eqb_spec (oo_rc oo) 0) as [Ez|Enz].
  - eexists. split; [reflexivity|]. cbn [t_sk t_sm t_smlen t_mout t_ret]. repeat split; [lia|]. right. split; [reflexivity|].
    eapply (hash_flip_opens a b ct d m nsig i q core); try eassumption; [apply (signer_core r core lim size Hs)|lia].
  - rewrite row_n. replace (q * n + n) with (S q * n) by lia.
    destruct (IH (S q) (mkT (t_sk t) (sg ++ m) (oo_m oo) (sig_size r + 32) (oo_mlen oo) (t_ret t))) as (t' & Ht & H1 & H2 & H3 & H4 & H5);
      cbn [t_sk t_sm t_smlen t_mout t_ret]; try reflexivity; [lia|cbn [Nat.mul]; lia|].
    exists t'. split; [exact Ht|]. repeat (split; [assumption|]). destruct H5 as [[H5 H6]|H5]; [left; split; [exact H5|]|right; exact H5].
    intros q' Hq' Hq''. destruct (Nat.eq_dec q' q) as [->|Hne]; [|apply H6; lia]. fold bad. destruct (mt_verify P ct d bad m) eqn:V; [|reflexivity].
    exfalso. apply Enz. destruct (HT eq_refl) as [R _]. exact R.
Qed.

(** everything the test looks for in the signature with index i is as it should be *)
Definition all_rejected (a b ct d m : bytes) (i : nat) : Prop :=
  let sg := mt_sign P a b ct d (N.of_nat i) m in
  mt_verify P ct d sg (flipped m) = false /\ forall q, q * n < sig_size r -> mt_verify P ct d (flipped_at (q * n) sg) m = false.

Lemma invalid_rounds St a b ct d skb nsig m t0 : live mt r core lim size St -> fields r a b ct d -> ct = mt_root P a d -> List.length m = 32 -> bytes_ok m ->
  sig_bytes (row_params r skb) = sig_size r -> (N.of_nat nsig < lim)%N -> St a b ct d 0%N (t_sk t0) ->
  List.length (t_sm t0) = sig_size r + 32 -> List.length (t_mout t0) = sig_size r + 32 -> t_ret t0 = 0%Z ->
  exists t, forN nsig 0 (fun _ => test_xmss_round_invalid mt core (row_params r skb) (public_key r ct d) m) t0 = Ok t /\
    (t_ret t = 0%Z /\ (forall i, i < nsig -> all_rejected a b ct d m i) \/ t_ret t = (-1)%Z /\ (flip_breaks P a b ct d m nsig \/ hash_flip_breaks P a b ct d m nsig)).
Proof.
  intros HL Hf Hct Lm Bm Hsb Hn HS0 L0 M0 R0. pose proof Hf as [[La [Lb [Lc Ld]]] [Ba [Bb [Bc Bd]]]].
  pose proof (limit_le mt r Hr core lim size Hs) as Hlim.
  destruct (forN_inv (fun j t => St a b ct d (N.of_nat j) (t_sk t) /\ List.length (t_sm t) = sig_size r + 32 /\ List.length (t_mout t) = sig_size r + 32 /\
    (t_ret t = 0%Z /\ (forall i, i < j -> all_rejected a b ct d m i) \/ t_ret t = (-1)%Z /\ (flip_breaks P a b ct d m nsig \/ hash_flip_breaks P a b ct d m nsig))) nsig 0
    (fun _ => test_xmss_round_invalid mt core (row_params r skb) (public_key r ct d) m) t0) as (t & Ht & HP).
  - intros j t Hj (HS & L1 & M1 & R1).
    destruct (live_step _ _ _ _ _ _ HL a b ct d (N.of_nat j) (t_sk t) (t_sm t) (t_smlen t) m Hf HS ltac:(lia) ltac:(lia)) as (sk' & HS' & Hsig).
    destruct (round_eval HE mt r Hr core lim size Hs ct d sk' (mt_sign P a b ct d (N.of_nat j) m) m t skb) as (oo1 & oo2 & O1 & O2 & M2 & M3 & Hrd); try assumption.
    { apply (mt_sign_len HE mt r Hr). } { apply (mt_sign_bytes HE mt r Hr). }
    destruct (honest_opens HE mt r Hr a b ct d Hf Hct core (N.of_nat j) m (t_mout t) (t_mlen t) (signer_core r core lim size Hs) ltac:(lia) Bm ltac:(lia)) as (oo & O & R & _).
    assert (oo = oo1) by congruence. subst oo. rewrite R in Hrd. cbn [Z.eqb] in Hrd.
    match type of Hrd with _ = Ok ?u => set (t1 := u) in * end.
    assert (R1' : t_ret t1 = 0%Z /\ (forall i, i < j -> all_rejected a b ct d m i) /\ mt_verify P ct d (mt_sign P a b ct d (N.of_nat j) m) (flipped m) = false \/
      t_ret t1 = (-1)%Z /\ (flip_breaks P a b ct d m nsig \/ hash_flip_breaks P a b ct d m nsig)).
    { unfold t1. cbn [t_ret]. destruct (Z.eqb_spec (oo_rc oo2) 0) as [Ez|Enz].
      - right. split; [reflexivity|]. left.
        eapply (flip_opens HE mt r Hr lim a b ct d m nsig j core); try eassumption; try lia; [intros ->; discriminate|apply (signer_core r core lim size Hs)].
      - destruct R1 as [[R1 A1]|R1]; [left; split; [exact R1|split; [exact A1|]]|right; exact R1].
        destruct (mt_verify P ct d _ (flipped m)) eqn:V; [|reflexivity]. exfalso. apply Enz.
        assert (Hm0 : m <> []) by (intros ->; discriminate).
        assert (Hk : key_of r (pk_size r) (public_key r ct d)) by (apply (pk_is_key r a b ct d Hf)).
        assert (Lsg : List.length (mt_sign P a b ct d (N.of_nat j) m) = sig_size r) by apply (mt_sign_len HE mt r Hr).
        assert (Bsg : bytes_ok (mt_sign P a b ct d (N.of_nat j) m)) by apply (mt_sign_bytes HE mt r Hr).
        destruct (open_decides HE mt r core (oo_m oo1) (oo_mlen oo1) (mt_sign P a b ct d (N.of_nat j) m ++ flipped m) _ Hr (signer_core r core lim size Hs) Hk) as (oo & O' & _ & HT & _);
          [rewrite app_length; lia|apply bytes_ok_app; split; [exact Bsg|apply flipped_bytes; assumption]|rewrite app_length, flipped_length by exact Hm0; lia|].
        assert (oo = oo2) by congruence. subst oo.
        assert (Hrt : firstn n (skipn 4 (public_key r ct d)) = ct).
        { unfold public_key. rewrite skipn_app_len by (now rewrite toByte_length). now apply firstn_app_len. }
        assert (Hsd : skipn (4 + n) (public_key r ct d) = d).
        { unfold public_key. rewrite app_assoc. apply skipn_app_len. rewrite app_length, toByte_length. lia. }
        rewrite Hrt, Hsd, firstn_app_len, skipn_app_len in HT by (symmetry; exact Lsg).
        destruct (HT V) as [R' _]. exact R'. }
    destruct (flip_hashes_eval a b ct d m nsig j skb Hf Hct Lm Bm ltac:(lia) ltac:(lia) (S (t_smlen t1)) 0 t1) as (t2 & E2 & K2 & S2 & N2 & M4 & R2);
      [reflexivity|reflexivity|exact M3|unfold t1; cbn [t_smlen]; lia|].
    exists t2. unfold test_xmss_round_invalid. rewrite Hrd, bind_ok. split; [exact E2|].
    split; [rewrite K2; replace (N.of_nat (S j)) with (N.of_nat j + 1)%N by lia; exact HS'|].
    split; [rewrite S2, app_length, (mt_sign_len HE mt r Hr); lia|]. split; [exact M4|].
    destruct R2 as [[-> Q2]|[R2 Hb]]; [|right; split; [exact R2|right; exact Hb]].
    destruct R1' as [(R1' & A1 & V1)|R1']; [|right; exact R1']. left. split; [exact R1'|].
    intros i Hi. destruct (Nat.eq_dec i j) as [->|Hne]; [|apply A1; lia]. split; [exact V1|]. intros q Hq. apply Q2; [lia|exact Hq].
  - split; [exact HS0|]. split; [exact L0|]. split; [exact M0|]. left. split; [exact R0|]. intros i Hi. lia.
  - exists t. split; [exact Ht|]. apply HP.
Qed.

Lemma test_invalid_passes rnd nsig : (forall i, (rnd i < 256)%N) -> bytes_ok (uninit (4 + size)) -> (N.of_nat nsig < lim)%N ->
  exists rc, test_xmss_invalid mt core (row_name r) nsig rnd = Ok rc /\
    (rc = 0%Z /\ (forall i, i < nsig -> all_rejected (stream rnd 32 n) (stream rnd (32 + n) n) (mt_root P (stream rnd 32 n) (stream rnd (32 + 2 * n) n)) (stream rnd (32 + 2 * n) n) (stream rnd 0 32) i) \/ rc = (-1)%Z /\ let sk_seed := stream rnd 32 n in let sk_prf := stream rnd (32 + n) n in let seed := stream rnd (32 + 2 * n) n in
       let rt := mt_root P sk_seed seed in let m := stream rnd 0 32 in
       flip_breaks P sk_seed sk_prf rt seed m nsig \/ hash_flip_breaks P sk_seed sk_prf rt seed m nsig).
Proof.
  intros Hb Hu Hn. destruct (test_start HE mt r Hr core lim size Hs rnd 32 Hb Hu) as (skb & St & sk & T1 & _ & _ & Tsb & _ & _ & HL & Hf & HS & Hkp).
  unfold test_xmss_invalid. rewrite T1, bind_ok. change (fun i => rnd (XMSS_MLEN + i)) with (fun i => rnd (32 + i)). rewrite Hkp, bind_ok. rewrite Tsb.
  match goal with |- context [forN nsig 0 _ ?t] => set (t0 := t) end.
  destruct (invalid_rounds St _ _ _ _ skb nsig (stream rnd 0 32) t0 HL Hf eq_refl (stream_length rnd 0 32) (stream_bytes rnd 0 32 Hb) Tsb Hn HS) as (t & Ht & Hret);
    [apply uninit_length|apply uninit_length|reflexivity|].
  change (map rnd (seq 0 XMSS_MLEN)) with (stream rnd 0 32). rewrite Ht, bind_ok. exists (t_ret t). split; [reflexivity|exact Hret].
Qed.
End Tests.
