(** What the programs in test/ return. *)
From Coq Require Import String.
From Verif Require Import Base Lib ModelUtils ModelParams ModelHash ModelWots ModelCommons ModelCore ModelCoreFast ModelXmss ModelUi ModelTests
  SpecRfc SpecParams SpecApi SpecComp SpecSec SpecForge SpecFast SpecLast SpecTests
  ProofUtils ProofHash ProofWots ProofCommons ProofCore ProofParams ProofApi ProofHistory ProofMain ProofMain2 ProofUi ProofUi2 ProofFast1 ProofFast3 ProofFast4 ProofFast5 ProofFast6 ProofFast7
  ProofMt7 ProofSec ProofForge ProofForge2 ProofUi4 ProofUi5 ProofLast ProofWotsAny.

Lemma flipped_snoc (Y : bytes) y : flipped (Y ++ [y]) = Y ++ [N.lxor y 1].
Proof. unfold flipped. now rewrite removelast_last, last_last. Qed.
Lemma flipped_app (X m : bytes) : m <> [] -> flipped (X ++ m) = X ++ flipped m.
Proof. intros Hm. destruct (exists_last Hm) as (Y & y & ->). rewrite app_assoc, !flipped_snoc. now rewrite app_assoc. Qed.
Lemma flipped_length (m : bytes) : m <> [] -> List.length (flipped m) = List.length m.
Proof. intros Hm. destruct (exists_last Hm) as (Y & y & ->). rewrite flipped_snoc, !app_length. reflexivity. Qed.
Lemma flipped_neq (m : bytes) : m <> [] -> flipped m <> m.
Proof.
  intros Hm. destruct (exists_last Hm) as (Y & y & ->). rewrite flipped_snoc. intros He. apply app_inv_head in He. injection He as He.
  assert (Hb : N.testbit (N.lxor y 1) 0 = negb (N.testbit y 0)) by (rewrite N.lxor_spec; destruct (N.testbit y 0); reflexivity).
  rewrite He in Hb. destruct (N.testbit y 0); discriminate.
Qed.
Lemma flipped_bytes (m : bytes) : bytes_ok m -> m <> [] -> bytes_ok (flipped m).
Proof.
  intros Hb Hm. destruct (exists_last Hm) as (Y & y & ->). rewrite flipped_snoc. apply bytes_ok_app in Hb. destruct Hb as [B1 B2].
  apply bytes_ok_app. split; [exact B1|]. constructor; [|constructor]. inversion B2 as [|? ? Hy _]; subst.
  assert (Hlt : (N.lxor y 1 < 2 ^ 8)%N); [|exact Hlt].
  destruct (N.eq_dec (N.lxor y 1) 0) as [->|Hne]; [reflexivity|]. apply N.log2_lt_pow2; [lia|].
  eapply N.le_lt_trans; [apply N.log2_lxor|]. change (N.log2 1) with 0%N. rewrite N.max_0_r.
  destruct (N.eq_dec y 0) as [->|Hy0]; [reflexivity|]. apply N.log2_lt_pow2; [lia|exact Hy].
Qed.
Lemma lxor_twice y : N.lxor (N.lxor y 1) 1 = y.
Proof. rewrite N.lxor_assoc. change (N.lxor 1 1) with 0%N. apply N.lxor_0_r. Qed.
Lemma rdc_snoc (Y : bytes) y : rdc (Y ++ [y]) (List.length Y) = Ok y.
Proof. unfold rdc. rewrite nth_error_app2, Nat.sub_diag by lia. reflexivity. Qed.
Lemma wrc_snoc (Y : bytes) y v : wrc (Y ++ [y]) (List.length Y) v = Ok (Y ++ [v]).
Proof.
  unfold wrc. rewrite app_length. cbn [List.length]. destruct (Nat.ltb_spec (List.length Y) (List.length Y + 1)) as [_|?]; [|lia]. f_equal.
  induction Y as [|a Y IH]; [reflexivity|]. cbn [app List.length upd]. now rewrite IH.
Qed.
Lemma differ_refl x : differ x x = false.
Proof. unfold differ. destruct (list_eq_dec N.eq_dec x x); congruence. Qed.
Lemma rd_whole (x : bytes) k : k = List.length x -> rd x 0 k = Ok x.
Proof. intros ->. unfold rd. cbn [Nat.add skipn]. rewrite Nat.leb_refl. now rewrite firstn_all. Qed.
Lemma rd_front (x : bytes) k : k <= List.length x -> rd x 0 k = Ok (firstn k x).
Proof. intros Hk. unfold rd. cbn [Nat.add skipn]. destruct (Nat.leb_spec k (List.length x)) as [_|?]; [reflexivity|lia]. Qed.

Section Tests.
Context {E : Env}.
Hypothesis HE : env_ok E.
Variables (mt : bool) (r : row).
Hypothesis Hr : In r (rows mt).
Notation P := (row_sp r).
Notation ib := (idx_size r).
Notation n := (r_n r).
Notation z := (repeat 0%N n).
Notation top := (2 ^ N.of_nat (r_h r))%N.
Variables (core : core) (lim : N) (size : nat).
Hypothesis Hs : signer r core lim size.

Lemma signer_core : a_core core.
Proof. destruct Hs; [left|right]; reflexivity. Qed.

Lemma test_setup : exists skb, let p := row_params r skb in test_params mt core (row_name r) = Ok (r_oid r, p) /\
  (forall p0, ProofParams.parse_oid mt (c_sk_bytes core) p0 (r_oid r) = Ok (Some p)) /\
  pk_bytes p = pk_size r /\ ModelParams.sk_bytes p = size /\ sig_bytes p = sig_size r /\ index_bytes p = ib /\ p_n p = n.
Proof.
  destruct (signer_acc mt r Hr core lim size Hs) as (_ & skb & A1 & A2 & A3 & _). exists skb. cbv zeta.
  assert (H1 : test_params mt core (row_name r) = Ok (r_oid r, row_params r skb)).
  { unfold test_params. change (ui_str_to_oid mt (row_name r)) with (ProofParams.str_to_oid mt (row_name r)).
    rewrite (proj2 (str_to_oid_spec mt (row_name r) (r_oid r))) by eauto. change (ui_parse_oid mt) with (ProofParams.parse_oid mt). rewrite A1. reflexivity. }
  split; [exact H1|]. split; [exact A1|]. split; [apply row_pk_size|]. split; [exact A2|]. split; [exact A3|].
  split; [|apply row_n]. destruct Hs; [apply p_ib|]. apply fp_ib.
Qed.

(** one round, whatever the signature is *)
Lemma round_eval rt seed sk2 sg m t skb : List.length rt = n -> List.length seed = n -> bytes_ok rt -> bytes_ok seed ->
  List.length sg = sig_size r -> bytes_ok sg -> List.length m = 32 -> bytes_ok m -> List.length (t_sm t) = sig_size r + 32 -> List.length (t_mout t) = sig_size r + 32 ->
  sig_bytes (row_params r skb) = sig_size r ->
  sign mt core (t_sk t) (t_sm t) (t_smlen t) m = Ok (mkSign 0 sk2 (sg ++ m ++ skipn (sig_size r + List.length m) (t_sm t)) (sig_size r + List.length m)) ->
  exists oo1 oo2, sign_open mt core (t_mout t) (t_mlen t) (sg ++ m) (public_key r rt seed) = Ok oo1 /\
    sign_open mt core (oo_m oo1) (oo_mlen oo1) (sg ++ flipped m) (public_key r rt seed) = Ok oo2 /\
    List.length (oo_m oo1) = sig_size r + 32 /\ List.length (oo_m oo2) = sig_size r + 32 /\
    test_xmss_round mt core (row_params r skb) (public_key r rt seed) m t =
      Ok (mkT sk2 (sg ++ m) (oo_m oo2) (sig_size r + 32) (oo_mlen oo2) (if Z.eqb (oo_rc oo2) 0 then (-1)%Z else if Z.eqb (oo_rc oo1) 0 then t_ret t else (-1)%Z)).
Proof.
  intros Lrt Lse Brt Bse Lsg Bsg Lm Bm Lt Lo Hsb Hsig.
  rewrite Lm in Hsig. rewrite (skipn_all2 (t_sm t)) in Hsig by lia. rewrite app_nil_r in Hsig.
  assert (Hm0 : m <> []) by (intros ->; discriminate).
  assert (Lsm : List.length (sg ++ m) = sig_size r + 32) by (rewrite app_length; lia).
  assert (Lfl : List.length (sg ++ flipped m) = sig_size r + 32) by (rewrite app_length, flipped_length by exact Hm0; lia).
  assert (Hk : key_of r (pk_size r) (public_key r rt seed)).
  { apply (pk_is_key r rt rt rt seed). repeat split; assumption. }
  destruct (open_decides HE mt r core (t_mout t) (t_mlen t) (sg ++ m) _ Hr signer_core Hk) as (oo1 & O1 & L1 & T1 & F1 & _); [lia|apply bytes_ok_app; split; assumption|lia|].
  destruct (open_decides HE mt r core (oo_m oo1) (oo_mlen oo1) (sg ++ flipped m) _ Hr signer_core Hk) as (oo2 & O2 & L2 & T2 & F2 & _);
    [lia|apply bytes_ok_app; split; [exact Bsg|apply flipped_bytes; assumption]|lia|].
  rewrite skipn_app_len, firstn_app_len in T1, F1 by (symmetry; exact Lsg). rewrite Lm in T1, F1.
  exists oo1, oo2. split; [exact O1|]. split; [exact O2|]. split; [lia|]. split; [lia|].
  unfold test_xmss_round. change (ui_sign_fn mt core) with (sign mt core). change (ui_open_fn mt core) with (sign_open mt core).
  rewrite Hsig, bind_ok. cbn [so_smlen so_sm so_sk]. rewrite Hsb. unfold XMSS_MLEN. rewrite Nat.eqb_refl.
  rewrite rd_whole by (symmetry; exact Lsm). rewrite bind_ok, O1, bind_ok. rewrite rd_front by lia. rewrite bind_ok.
  destruct (Nat.eqb_spec (sig_size r + 32) 0) as [?|_]; [lia|].
  destruct (exists_last Hm0) as (Y & y & Em).
  assert (Es : sg ++ m = (sg ++ Y) ++ [y]) by (rewrite Em; apply app_assoc).
  assert (Ef : sg ++ flipped m = (sg ++ Y) ++ [N.lxor y 1]) by (rewrite Em, flipped_snoc; apply app_assoc).
  assert (LY : sig_size r + 32 - 1 = List.length (sg ++ Y)).
  { rewrite Em, app_length in Lm. cbn [List.length] in Lm. rewrite app_length. lia. }
  rewrite LY, Es, rdc_snoc, bind_ok, wrc_snoc, bind_ok. rewrite rd_whole by (rewrite <- Ef; symmetry; exact Lfl). rewrite bind_ok.
  rewrite <- Ef, O2, bind_ok. rewrite Ef, rdc_snoc, bind_ok, wrc_snoc, bind_ok, lxor_twice, <- Es.
  f_equal. f_equal. destruct (Z.eqb_spec (oo_rc oo2) 0) as [_|_]; [reflexivity|].
  destruct (mt_verify P _ _ sg m) eqn:V1.
  - destruct (T1 eq_refl) as (R1 & R2 & R3). rewrite R1, R2, R3, differ_refl. reflexivity.
  - destruct (F1 eq_refl) as (R1 & R2 & _). rewrite R1, R2. cbn [Z.eqb Nat.eqb]. destruct (differ m _); reflexivity.
Qed.

(** the released signatures of a test run, as a history *)
Lemma test_gave a b ct d m nsig : exists cs os, List.length cs = nsig /\ (forall k x, nth_error cs k = Some x -> x = mkCall m [] 0) /\ gave r a b ct d cs os /\
  pairs r os = map (fun k => (mt_sign P a b ct d (N.of_nat k) m, m)) (seq 0 nsig).
Proof.
  set (cs := repeat (mkCall m [] 0) nsig).
  set (os := map (fun j => mkSign 0 [] (mt_sign P a b ct d (N.of_nat j) m ++ m) (sig_size r + List.length m)) (seq 0 nsig)).
  assert (Lsg : forall k, List.length (mt_sign P a b ct d k m) = sig_size r) by (intros k; apply (mt_sign_len HE mt r Hr)).
  exists cs, os. split; [apply repeat_length|]. split; [intros k x Hx; eapply repeat_spec, nth_error_In; exact Hx|]. split.
  - split; [unfold cs, os; now rewrite repeat_length, map_length, seq_length|].
    intros k x o Hx Ho. assert (Ex : x = mkCall m [] 0) by (eapply repeat_spec, nth_error_In; exact Hx).
    assert (Hk : k < nsig). { assert (Hz : k < List.length cs) by (apply nth_error_Some; rewrite Hx; discriminate). unfold cs in Hz. now rewrite repeat_length in Hz. }
    subst x. cbn [c_m].
    unfold os in Ho. rewrite nth_error_map in Ho. rewrite nth_error_nth' with (d := 0) in Ho by (rewrite seq_length; exact Hk). rewrite seq_nth in Ho by exact Hk.
    cbn [option_map Nat.add] in Ho. injection Ho as <-. unfold signed_message. cbn [so_sm so_smlen]. apply firstn_all2. rewrite app_length, Lsg. lia.
  - unfold pairs, os. rewrite map_map. apply map_ext. intros k. unfold signed_message. cbn [so_sm so_smlen].
    rewrite (firstn_all2 (_ ++ m)) by (rewrite app_length, Lsg; lia). rewrite firstn_app_len, skipn_app_len by (symmetry; apply Lsg). reflexivity.
Qed.

(** an honest signature on the flipped message *)
Lemma flip_opens a b ct d m nsig j c mbuf mlen oo : fields r a b ct d -> ct = mt_root P a d -> bytes_ok m -> m <> [] -> (N.of_nat nsig <= top)%N -> j < nsig -> a_core c ->
  sig_size r + List.length m <= List.length mbuf ->
  sign_open mt c mbuf mlen (mt_sign P a b ct d (N.of_nat j) m ++ flipped m) (public_key r ct d) = Ok oo -> oo_rc oo = 0%Z -> flip_breaks P a b ct d m nsig.
Proof.
  intros Hf Hct Bm Hm0 Hn Hj Hc Lb Hop Hrc.
  set (sg := mt_sign P a b ct d (N.of_nat j) m) in *.
  assert (Lj : List.length sg = sig_size r) by apply (mt_sign_len HE mt r Hr).
  destruct (test_gave a b ct d m nsig) as (cs & os & Hlen & Hcs & Hg & Hps).
  destruct (forgery_breaks HE mt r Hr a b ct d Hf Hct cs os c mbuf mlen (sg ++ flipped m) oo) as [_ F].
  - rewrite Hlen. exact Hn.
  - exact Hg.
  - exact Hc.
  - rewrite app_length. lia.
  - apply bytes_ok_app. split; [apply (mt_sign_bytes HE mt r Hr)|apply flipped_bytes; assumption].
  - rewrite app_length, flipped_length by exact Hm0. lia.
  - exact Hop.
  - exact Hrc.
  - rewrite firstn_app_len in F by (symmetry; exact Lj). rewrite skipn_app_len in F by (symmetry; exact Lj).
    assert (Hidx : sm_index r (sg ++ flipped m) = N.of_nat j).
    { unfold sm_index. pose proof (honest_index HE mt r Hr a b ct d (N.of_nat j) m ltac:(lia)) as HI. unfold sig_index in HI. change (sp_ib P) with ib in HI.
      rewrite firstn_app. replace (ib - List.length sg) with 0; [cbn [firstn]; rewrite app_nil_r; exact HI|]. rewrite Lj. unfold sig_size, sp_sig_bytes, idx_size. lia. }
    rewrite Hidx in F. specialize (F ltac:(lia) m Bm). exists j. split; [exact Hj|]. cbv zeta.
    destruct F as [F|F].
    + intros He. apply app_inv_head in He. symmetry in He. revert He. apply flipped_neq. exact Hm0.
    + intros x Hx. rewrite (Hcs _ _ Hx). reflexivity.
    + left. exact F.
    + right. rewrite <- Hps. exact F.
Qed.

Lemma stream_length rnd from k : List.length (stream rnd from k) = k.
Proof. unfold stream. now rewrite map_length, seq_length. Qed.
Lemma stream_bytes rnd from k : (forall i, (rnd i < 256)%N) -> bytes_ok (stream rnd from k).
Proof. intros Hb. apply Forall_forall. intros x Hx. apply in_map_iff in Hx. destruct Hx as (i & <- & _). apply Hb. Qed.
Lemma stream_shift rnd s from k : map (fun i => rnd (s + i)) (seq from k) = stream rnd (s + from) k.
Proof. unfold stream. revert from. induction k as [|k IH]; intros from; [reflexivity|]. cbn [seq map]. rewrite IH, Nat.add_succ_r. reflexivity. Qed.

(** the key the tests make *)
Lemma test_start rnd off : (forall i, (rnd i < 256)%N) -> bytes_ok (uninit (4 + size)) ->
  let a := stream rnd off n in let b := stream rnd (off + n) n in let d := stream rnd (off + 2 * n) n in let ct := mt_root P a d in
  exists skb St sk, let p := row_params r skb in
    test_params mt core (row_name r) = Ok (r_oid r, p) /\ (forall p0, ui_parse_oid mt (c_sk_bytes core) p0 (r_oid r) = Ok (Some p)) /\
    ui_str_to_oid mt (row_name r) = Some (r_oid r) /\ sig_bytes p = sig_size r /\ index_bytes p = ib /\ p_n p = n /\
    live mt r core lim size St /\ fields r a b ct d /\ St a b ct d 0%N sk /\
    ui_keypair_fn mt core (uninit (XMSS_OID_LEN + pk_bytes p)) (uninit (XMSS_OID_LEN + ModelParams.sk_bytes p)) (r_oid r) (fun i => rnd (off + i)) = Ok (0%Z, public_key r ct d, sk).
Proof.
  intros Hb Hu a b d ct. destruct test_setup as (skb & T1 & T2 & T3 & T4 & T5 & T6 & T7).
  destruct (signer_live HE mt r Hr core lim size Hs) as [St HL].
  destruct (live_key _ _ _ _ _ _ HL (fun i => rnd (off + i)) (uninit (4 + pk_size r)) (uninit (4 + size))) as (a' & b' & ct' & d' & sk & Hf & Hct & Hmat & HS & Hkp);
    [intros i; apply Hb|apply uninit_length|apply uninit_length|exact Hu|].
  unfold key_material in Hmat. rewrite !stream_shift, Nat.add_0_r in Hmat.
  assert (Ea : a' = a) by (unfold a; congruence). assert (Eb : b' = b) by (unfold b; congruence). assert (Ed : d' = d) by (unfold d; congruence).
  subst a' b' d'. assert (Ec : ct' = ct) by exact Hct. subst ct'.
  exists skb, St, sk. cbv zeta. split; [exact T1|]. split; [exact T2|].
  split; [change (ui_str_to_oid mt (row_name r)) with (ProofParams.str_to_oid mt (row_name r)); rewrite (proj2 (str_to_oid_spec mt (row_name r) (r_oid r))) by eauto; reflexivity|].
  split; [exact T5|]. split; [exact T6|]. split; [exact T7|]. split; [exact HL|]. split; [exact Hf|]. split; [exact HS|].
  rewrite T3, T4. exact Hkp.
Qed.

(** all rounds before the last *)
Lemma test_rounds St a b ct d skb nsig m t0 : live mt r core lim size St -> fields r a b ct d -> ct = mt_root P a d -> List.length m = 32 -> bytes_ok m ->
  sig_bytes (row_params r skb) = sig_size r -> (N.of_nat nsig < lim)%N -> St a b ct d 0%N (t_sk t0) ->
  List.length (t_sm t0) = sig_size r + 32 -> List.length (t_mout t0) = sig_size r + 32 -> t_ret t0 = 0%Z ->
  exists t, forN nsig 0 (fun _ => test_xmss_round mt core (row_params r skb) (public_key r ct d) m) t0 = Ok t /\
    St a b ct d (N.of_nat nsig) (t_sk t) /\ List.length (t_sm t) = sig_size r + 32 /\ List.length (t_mout t) = sig_size r + 32 /\
    (t_ret t = 0%Z \/ t_ret t = (-1)%Z /\ flip_breaks P a b ct d m nsig).
Proof.
  intros HL Hf Hct Lm Bm Hsb Hn HS0 L0 M0 R0. pose proof Hf as [[La [Lb [Lc Ld]]] [Ba [Bb [Bc Bd]]]].
  destruct (forN_inv (fun j t => St a b ct d (N.of_nat j) (t_sk t) /\ List.length (t_sm t) = sig_size r + 32 /\ List.length (t_mout t) = sig_size r + 32 /\
    (t_ret t = 0%Z \/ t_ret t = (-1)%Z /\ flip_breaks P a b ct d m nsig)) nsig 0 (fun _ => test_xmss_round mt core (row_params r skb) (public_key r ct d) m) t0) as (t & Ht & HP).
  - intros j t Hj (HS & L1 & M1 & R1).
    destruct (live_step _ _ _ _ _ _ HL a b ct d (N.of_nat j) (t_sk t) (t_sm t) (t_smlen t) m Hf HS ltac:(lia) ltac:(lia)) as (sk' & HS' & Hsig).
    destruct (round_eval ct d sk' (mt_sign P a b ct d (N.of_nat j) m) m t skb) as (oo1 & oo2 & O1 & O2 & M2 & M3 & Hrd); try assumption.
    { apply (mt_sign_len HE mt r Hr). } { apply (mt_sign_bytes HE mt r Hr). }
    eexists. split; [exact Hrd|]. cbn [t_sk t_sm t_mout t_ret].
    split; [replace (N.of_nat (S j)) with (N.of_nat j + 1)%N by lia; exact HS'|].
    split; [rewrite app_length, (mt_sign_len HE mt r Hr); lia|]. split; [exact M3|].
    pose proof (limit_le mt r Hr core lim size Hs) as Hlim.
    destruct (honest_opens HE mt r Hr a b ct d Hf Hct core (N.of_nat j) m (t_mout t) (t_mlen t) signer_core ltac:(lia) Bm ltac:(lia)) as (oo & O & R & _).
    assert (oo = oo1) by congruence. subst oo. rewrite R. cbn [Z.eqb].
    destruct (Z.eqb_spec (oo_rc oo2) 0) as [Ez|_]; [|exact R1]. right. split; [reflexivity|].
    eapply (flip_opens a b ct d m nsig j core); try eassumption; try lia; [intros ->; discriminate|apply signer_core].
  - rewrite N2Nat.id || idtac. split; [exact HS0|]. split; [exact L0|]. split; [exact M0|]. left. exact R0.
  - exists t. split; [exact Ht|exact HP].
Qed.

Lemma test_passes rnd nsig : (forall i, (rnd i < 256)%N) -> bytes_ok (uninit (4 + size)) -> (N.of_nat nsig < lim)%N ->
  exists rc, test_xmss mt core (row_name r) nsig rnd = Ok rc /\
    (rc = 0%Z \/ rc = (-1)%Z /\ let sk_seed := stream rnd 32 n in let seed := stream rnd (32 + 2 * n) n in
       flip_breaks P sk_seed (stream rnd (32 + n) n) (mt_root P sk_seed seed) seed (stream rnd 0 32) nsig).
Proof.
  intros Hb Hu Hn. destruct (test_start rnd 32 Hb Hu) as (skb & St & sk & T1 & _ & _ & Tsb & _ & _ & HL & Hf & HS & Hkp).
  unfold test_xmss. rewrite T1, bind_ok. change (fun i => rnd (XMSS_MLEN + i)) with (fun i => rnd (32 + i)). rewrite Hkp, bind_ok. rewrite Tsb.
  match goal with |- context [forN nsig 0 _ ?t] => set (t0 := t) end.
  destruct (test_rounds St _ _ _ _ skb nsig (stream rnd 0 32) t0 HL Hf eq_refl (stream_length rnd 0 32) (stream_bytes rnd 0 32 Hb) Tsb Hn HS) as (t & Ht & _ & _ & _ & Hret);
    [apply uninit_length|apply uninit_length|reflexivity|].
  change (map rnd (seq 0 XMSS_MLEN)) with (stream rnd 0 32). rewrite Ht, bind_ok. exists (t_ret t). split; [reflexivity|exact Hret].
Qed.

(** the round with the last index *)
Lemma test_fails rnd nsig : (forall i, (rnd i < 256)%N) -> bytes_ok (uninit (4 + size)) -> lim = top -> N.of_nat nsig = top ->
  let sk_seed := stream rnd 32 n in let sk_prf := stream rnd (32 + n) n in let seed := stream rnd (32 + 2 * n) n in let rt := mt_root P sk_seed seed in let m := stream rnd 0 32 in
  sk_prf <> z ->
  exists rc, test_xmss mt core (row_name r) nsig rnd = Ok rc /\
    (rc = (-1)%Z \/ rc = 0%Z /\ exists sig, last_sig r m core sig /\
       last_broken r sk_seed sk_prf rt seed m sig (map (fun k => (mt_sign P sk_seed sk_prf rt seed (N.of_nat k) m, m)) (seq 0 (nsig - 1)))).
Proof.
  intros Hb Hu Hlim Hn a b d ct m Hnz. destruct (test_start rnd 32 Hb Hu) as (skb & St & sk & T1 & _ & _ & Tsb & _ & _ & HL & Hf & HS & Hkp). fold a b d ct in Hf, HS, Hkp.
  pose proof (ProofTree.pow2_pos (r_h r)) as Hpos. destruct nsig as [|k]; [lia|].
  unfold test_xmss. rewrite T1, bind_ok. change (fun i => rnd (XMSS_MLEN + i)) with (fun i => rnd (32 + i)). rewrite Hkp, bind_ok. rewrite Tsb.
  match goal with |- context [forN (S k) 0 _ ?t] => set (t0 := t) end. change (map rnd (seq 0 XMSS_MLEN)) with m.
  destruct (test_rounds St _ _ _ _ skb k m t0 HL Hf eq_refl (stream_length rnd 0 32) (stream_bytes rnd 0 32 Hb) Tsb ltac:(lia) HS) as (t & Ht & HSt & Lt & Mt & Hret);
    [apply uninit_length|apply uninit_length|reflexivity|].
  rewrite forN_snoc, Ht, bind_ok. replace (N.of_nat k) with (top - 1)%N in HSt by lia.
  assert (Lm : List.length m = 32) by apply stream_length. assert (Bm : bytes_ok m) by (apply stream_bytes; exact Hb).
  destruct (last_shape HE mt r Hr core lim size Hs Hlim St HL a b ct d (t_sk t) (t_sm t) (t_smlen t) m Hf HSt ltac:(lia)) as (sk2 & ixb & tl & H1 & Lix & Lsg & Bsg & Hix & Hls & _).
  pose proof Hf as [[La [Lb [Lc Ld]]] [Ba [Bb [Bc Bd]]]].
  set (sg := ixb ++ _) in *.
  destruct (round_eval ct d sk2 sg m t skb) as (oo1 & oo2 & O1 & O2 & M2 & M3 & Hrd); try assumption.
  rewrite Hrd, bind_ok. cbn [t_ret]. eexists. split; [reflexivity|].
  destruct (Z.eqb_spec (oo_rc oo2) 0) as [_|_]; [left; reflexivity|].
  destruct (Z.eqb_spec (oo_rc oo1) 0) as [Hz|_]; [|left; reflexivity].
  destruct Hret as [Hret|[Hret _]]; rewrite Hret; [right|left; reflexivity]. split; [reflexivity|]. exists sg. split; [exact Hls|].
  destruct (test_gave a b ct d m k) as (cs & os & Hlen & Hcs & Hg & Hps). replace (S k - 1) with k by lia. rewrite <- Hps.
  apply (last_breaks HE mt r Hr a b ct d cs os ixb tl m Hf eq_refl Hnz ltac:(lia) Hg Bm Lix Lsg Bsg Hix core (t_mout t) (t_mlen t) oo1 signer_core); [fold sg; rewrite app_length; lia|exact O1|exact Hz].
Qed.

(** test/maxsigs*: every signature is made, then two calls are refused *)
Lemma max_passes rnd nsig : (forall i, (rnd i < 256)%N) -> bytes_ok (uninit (4 + size)) -> lim = top -> N.of_nat nsig = top -> r_h r < 8 * ib ->
  let sk := secret_key r (256 ^ N.of_nat ib - 1) z z z z ++ repeat 0%N (size - sk_size r) in let oidx := os2ip (firstn ib sk) in
  test_max mt core (row_name r) nsig rnd = Ok (0%Z, [((-2)%Z, oidx, sk); ((-2)%Z, oidx, sk)]).
Proof.
  intros Hb Hu Hlim Hn Hh skd oidx. destruct (test_start rnd 32 Hb Hu) as (skb & St & sk & T1 & _ & _ & Tsb & Tib & _ & HL & Hf & HS & Hkp).
  set (a := stream rnd 32 n) in *. set (b := stream rnd (32 + n) n) in *. set (d := stream rnd (32 + 2 * n) n) in *. set (ct := mt_root P a d) in *. set (m := stream rnd 0 32).
  assert (Hpow : (top < 256 ^ N.of_nat ib)%N).
  { change 256%N with (2 ^ 8)%N. rewrite <- N.pow_mul_r. apply N.pow_lt_mono_r; lia. }
  pose proof (ProofTree.pow2_pos (r_h r)) as Hpos. destruct nsig as [|k]; [lia|].
  assert (Lm : List.length m = 32) by apply stream_length.
  unfold test_max. rewrite T1, bind_ok. change (fun i => rnd (XMSS_MLEN + i)) with (fun i => rnd (32 + i)). rewrite Hkp, bind_ok. rewrite Tsb.
  change (map rnd (seq 0 XMSS_MLEN)) with m. unfold XMSS_MLEN.
  match goal with |- context [forN (S k) 0 _ ?t] => set (t0 := t) end.
  destruct (forN_inv (fun j t => St a b ct d (N.of_nat j) (m_sk t) /\ List.length (m_sm t) = sig_size r + 32 /\ m_ret t = 0%Z /\ m_log t = []) k 0 (fun _ => max_round1 mt core m) t0) as (t & Ht & HSt & Lt & Rt & Gt).
  - intros j t Hj (HSj & L1 & R1 & G1).
    destruct (live_step _ _ _ _ _ _ HL a b ct d (N.of_nat j) (m_sk t) (m_sm t) (m_smlen t) m Hf HSj ltac:(lia) ltac:(lia)) as (sk' & HS' & Hsig).
    unfold max_round1. change (ui_sign_fn mt core) with (sign mt core). rewrite Hsig, bind_ok. eexists. split; [reflexivity|]. cbn [m_sk m_sm m_ret m_log so_rc so_sk so_sm Z.eqb].
    split; [replace (N.of_nat (S j)) with (N.of_nat j + 1)%N by lia; exact HS'|].
    split; [rewrite !app_length, (mt_sign_len HE mt r Hr), skipn_length; lia|]. split; assumption.
  - split; [exact HS|]. split; [apply uninit_length|]. split; reflexivity.
  - rewrite forN_snoc, Ht, bind_ok. rewrite Nat.add_0_l in HSt. replace (N.of_nat k) with (top - 1)%N in HSt by lia.
    destruct (last_shape HE mt r Hr core lim size Hs Hlim St HL a b ct d (m_sk t) (m_sm t) (m_smlen t) m Hf HSt ltac:(lia)) as (sk2 & ixb & tl & H1 & Lix & Lsg & Bsg & Hix & Hls & Hdead).
    unfold max_round1 at 1. change (ui_sign_fn mt core) with (sign mt core). rewrite H1, bind_ok. cbn [so_rc so_sk so_sm so_smlen Z.eqb]. rewrite bind_ok. rewrite Rt, Gt.
    set (sm1 := (ixb ++ _) ++ m ++ _). assert (L1 : List.length sm1 = sig_size r + 32).
    { unfold sm1. rewrite app_length, Lsg, app_length, skipn_length. lia. }
    assert (Hround : forall i sk sm smlen ret log, dead r size i sk -> (top <= i < 256 ^ N.of_nat ib)%N -> List.length sm = sig_size r + 32 ->
      exists sm' smlen', max_round2 mt core (row_params r skb) m (mkM sk sm smlen ret log) = Ok (mkM skd sm' smlen' ret (log ++ [((-2)%Z, oidx, skd)])) /\
        List.length sm' = sig_size r + 32 /\ dead r size (256 ^ N.of_nat ib - 1) skd).
    { intros i sk0 sm smlen ret log Hd Hi Lsm. destruct (dead_step mt r Hr core lim size i sk0 sm smlen m Hs Hd Hi ltac:(lia)) as (sm' & smlen' & Hsg & Lsm' & Hd').
      fold skd in Hsg, Hd'. exists sm', smlen'. unfold max_round2. change (ui_sign_fn mt core) with (sign mt core). cbn [m_sk m_sm m_smlen m_ret m_log]. rewrite Hsg, bind_ok.
      cbn [so_rc so_sk so_sm so_smlen Z.eqb]. rewrite Tib.
      assert (Lk : ib <= List.length skd).
      { unfold skd. rewrite app_length. unfold secret_key. rewrite !app_length, !toByte_length. lia. }
      rewrite rd_front by exact Lk. rewrite bind_ok. split; [|split; [lia|exact Hd']].
      pose proof (idx_size_le mt r Hr) as Hib. rewrite bytes_to_ull_spec; [rewrite bind_ok; reflexivity|rewrite firstn_length; lia|].
      apply bytes_ok_firstn. unfold skd, secret_key. rewrite !bytes_ok_app. repeat split; try apply toByte_ok; apply zeros_bytes. }
    destruct (Hround top sk2 sm1 (sig_size r + List.length m) 0%Z [] Hdead ltac:(lia) L1) as (sm2 & sl2 & R1 & L2 & D2).
    destruct (Hround (256 ^ N.of_nat ib - 1)%N skd sm2 sl2 0%Z [((-2)%Z, oidx, skd)] D2 ltac:(lia) L2) as (sm3 & sl3 & R2 & L3 & D3).
    cbn [forN]. rewrite R1, bind_ok. cbn [app]. rewrite R2, !bind_ok. reflexivity.
Qed.

(** test/xmss_determinism *)
Lemma determinism_passes rnd : (forall i, (rnd i < 256)%N) -> bytes_ok (uninit (4 + size)) -> (1 < lim)%N ->
  test_determinism mt core (row_name r) rnd = Ok 0%Z.
Proof.
  intros Hb Hu Hlim. destruct (test_start rnd 0 Hb Hu) as (skb & St & sk & T1 & _ & _ & Tsb & _ & Tn & HL & Hf & HS & Hkp). cbn [Nat.add] in Hf, HS, Hkp.
  unfold test_determinism. rewrite T1, bind_ok. change (fun i => rnd i) with rnd in Hkp. rewrite Hkp, bind_ok. cbv zeta. rewrite Tsb, Tn.
  change (map rnd (seq (3 * n) XMSS_MLEN)) with (stream rnd (3 * n) 32). change (ui_sign_fn mt core) with (sign mt core). unfold XMSS_MLEN.
  assert (Lm : List.length (stream rnd (3 * n) 32) = 32) by apply stream_length. set (m := stream rnd (3 * n) 32) in *.
  assert (Lu : List.length (uninit (sig_size r + 32)) = sig_size r + 32) by apply uninit_length.
  destruct (live_step _ _ _ _ _ _ HL _ _ _ _ 0%N sk (uninit (sig_size r + 32)) (N.to_nat (junk 0)) m Hf HS ltac:(lia) ltac:(lia)) as (sk1 & _ & S1).
  rewrite S1, bind_ok. cbn [so_smlen].
  destruct (live_step _ _ _ _ _ _ HL _ _ _ _ 0%N sk (uninit (sig_size r + 32)) (sig_size r + List.length m) m Hf HS ltac:(lia) ltac:(lia)) as (sk2 & _ & S2).
  rewrite S2, bind_ok. cbn [so_sm]. rewrite rd_front by (rewrite !app_length, (mt_sign_len HE mt r Hr); lia). rewrite !bind_ok, differ_refl. reflexivity.
Qed.

(** test/speed *)
Lemma speed_passes rnd nsig : (forall i, (rnd i < 256)%N) -> bytes_ok (uninit (4 + size)) -> (N.of_nat nsig < lim)%N ->
  test_speed mt core (row_name r) nsig rnd = Ok 0%Z.
Proof.
  intros Hb Hu Hlim. destruct (test_start rnd 32 Hb Hu) as (skb & St & sk & _ & T2 & T3 & Tsb & _ & Tn & HL & Hf & HS & Hkp).
  set (a := stream rnd 32 n) in *. set (b := stream rnd (32 + n) n) in *. set (d := stream rnd (32 + 2 * n) n) in *. set (ct := mt_root P a d) in *.
  unfold test_speed. rewrite T3, T2, bind_ok. change (fun i => rnd (XMSS_MLEN + i)) with (fun i => rnd (32 + i)). rewrite Hkp, bind_ok. rewrite Tsb.
  change (map rnd (seq 0 XMSS_MLEN)) with (stream rnd 0 32). change (ui_sign_fn mt core) with (sign mt core). change (ui_open_fn mt core) with (sign_open mt core).
  assert (Lm : List.length (stream rnd 0 32) = 32) by apply stream_length. assert (Bm : bytes_ok (stream rnd 0 32)) by (apply stream_bytes; exact Hb). set (m := stream rnd 0 32) in *.
  assert (Lu : List.length (uninit (sig_size r + 32)) = sig_size r + 32) by apply uninit_length. unfold XMSS_MLEN.
  destruct nsig as [|k].
  - cbn [forN]. rewrite !bind_ok. reflexivity.
  - match goal with |- context [forN (S k) 0 ?f (sk, ?u, ?l)] => set (body := f);
      destruct (forN_inv (fun j (t : bytes * bytes * nat) => let '(s, sm, sl) := t in St a b ct d (N.of_nat j) s /\ List.length sm = sig_size r + 32 /\
        (forall i, j = S i -> sm = mt_sign P a b ct d (N.of_nat i) m ++ m /\ sl = sig_size r + 32)) (S k) 0 body (sk, u, l)) as (((s & sm) & sl) & Ht & _ & _ & Hsm) end.
    + intros j ((s & sm) & sl) Hj (HSj & L1 & _).
      destruct (live_step _ _ _ _ _ _ HL a b ct d (N.of_nat j) s sm sl m Hf HSj ltac:(lia) ltac:(lia)) as (sk' & HS' & Hsig).
      unfold body. rewrite Hsig, bind_ok. eexists. split; [reflexivity|]. cbn [so_sk so_sm so_smlen].
      split; [replace (N.of_nat (S j)) with (N.of_nat j + 1)%N by lia; exact HS'|].
      rewrite (skipn_all2 sm) by lia. rewrite app_nil_r. split; [rewrite !app_length, (mt_sign_len HE mt r Hr); lia|].
      intros i Hi. injection Hi as <-. split; [reflexivity|lia].
    + split; [exact HS|]. split; [exact Lu|]. intros i Hi. discriminate.
    + rewrite Ht, bind_ok. destruct (Hsm k eq_refl) as [Esm Esl]. subst sm sl.
      pose proof (limit_le mt r Hr core lim size Hs) as Hle.
      match goal with |- context [forN (S k) 0 ?f (uninit ?u, ?l, 0%Z)] => set (body2 := f);
        destruct (forN_inv (fun j (t : bytes * nat * Z) => let '(mo, ml, ret) := t in List.length mo = sig_size r + 32 /\ ret = 0%Z) (S k) 0 body2 (uninit u, l, 0%Z)) as (((mo & ml) & ret) & Ht2 & _ & Hret) end.
      * intros j ((mo & ml) & ret) Hj (L1 & R1). unfold body2.
        rewrite rd_whole by (rewrite app_length, (mt_sign_len HE mt r Hr); lia). rewrite bind_ok.
        destruct (honest_opens HE mt r Hr a b ct d Hf eq_refl core (N.of_nat k) m mo ml signer_core ltac:(lia) Bm ltac:(lia)) as (oo & O & R & _).
        rewrite O, bind_ok. eexists. split; [reflexivity|]. cbn [fst snd]. rewrite R, R1. split; [|reflexivity].
        destruct (open_decides HE mt r core mo ml (mt_sign P a b ct d (N.of_nat k) m ++ m) (public_key r ct d) Hr signer_core (pk_is_key r a b ct d Hf)) as (oo' & O' & L' & _).
        { rewrite app_length, (mt_sign_len HE mt r Hr). lia. } { apply bytes_ok_app. split; [apply (mt_sign_bytes HE mt r Hr)|exact Bm]. } { rewrite app_length, (mt_sign_len HE mt r Hr). lia. }
        assert (oo' = oo) by congruence. subst oo'. lia.
      * split; [exact Lu|reflexivity].
      * rewrite Ht2, bind_ok, Hret. reflexivity.
Qed.
End Tests.

(** test/oid *)
Lemma check_oids_ok {E : Env} mt core lim names : (forall s, In s names -> exists r, In r (rows mt) /\ row_name r = s /\ exists size, signer r core (lim r) size) ->
  forall p, exists p', check_oids mt core p names = Ok (Some p').
Proof.
  induction names as [|s names IH]; intros Hin p; [eexists; reflexivity|]. destruct (Hin s (or_introl eq_refl)) as (r & Hr & <- & size & Hs).
  destruct (test_setup mt r Hr core (lim r) size Hs) as (skb & _ & T2 & _). cbn [check_oids]. unfold check_oid.
  change (ui_str_to_oid mt (row_name r)) with (ProofParams.str_to_oid mt (row_name r)). rewrite (proj2 (str_to_oid_spec mt (row_name r) (r_oid r))) by eauto.
  change (ui_parse_oid mt) with (ProofParams.parse_oid mt). rewrite T2, bind_ok. apply IH. intros s' Hs'. apply Hin. right. exact Hs'.
Qed.
Lemma oid_names : (forall s, In s oid_c_xmss <-> exists r, In r (rows false) /\ row_name r = s) /\ (forall s, In s oid_c_xmssmt <-> exists r, In r (rows true) /\ row_name r = s).
Proof.
  assert (H1 : forall mt l, map row_name (rows mt) = l -> forall s, In s l <-> exists r, In r (rows mt) /\ row_name r = s).
  { intros mt l <- s. rewrite in_map_iff. split; intros (r & Ha & Hb); exists r; tauto. }
  split; apply H1; vm_compute; reflexivity.
Qed.
Lemma oid_passes {E : Env} core : a_core core -> test_oid core = Ok 0%Z.
Proof.
  intros Hc. destruct oid_names as [N1 N2]. unfold test_oid.
  destruct Hc as [-> | ->].
  - destruct (check_oids_ok false ref_core (fun r => 2 ^ N.of_nat (r_h r))%N oid_c_xmss) with (p := uninit_params) as [p ->].
    { intros s Hsn. apply N1 in Hsn. destruct Hsn as (r & Hr & <-). exists r. split; [exact Hr|]. split; [reflexivity|]. eexists. constructor. }
    rewrite bind_ok. destruct (check_oids_ok true ref_core (fun r => 2 ^ N.of_nat (r_h r))%N oid_c_xmssmt) with (p := p) as [p' ->]; [|reflexivity].
    intros s Hsn. apply N2 in Hsn. destruct Hsn as (r & Hr & <-). exists r. split; [exact Hr|]. split; [reflexivity|]. eexists. constructor.
  - destruct (check_oids_ok false fast_core fast_limit oid_c_xmss) with (p := uninit_params) as [p ->].
    { intros s Hsn. apply N1 in Hsn. destruct Hsn as (r & Hr & <-). exists r. split; [exact Hr|]. split; [reflexivity|]. eexists. constructor. }
    rewrite bind_ok. destruct (check_oids_ok true fast_core fast_limit oid_c_xmssmt) with (p := p) as [p' ->]; [|reflexivity].
    intros s Hsn. apply N2 in Hsn. destruct Hsn as (r & Hr & <-). exists r. split; [exact Hr|]. split; [reflexivity|]. eexists. constructor.
Qed.

(** test/wots *)
Lemma wots_passes {E : Env} (HE : env_ok E) r core rnd : In r (rows false) -> a_core core -> (forall i, (rnd i < 256)%N) -> test_wots core (r_oid r) rnd = Ok 0%Z.
Proof.
  intros Hr Hc Hb.
  assert (Hx : exists skb, xmss_parse_oid (c_sk_bytes core) uninit_params (r_oid r) = Ok (Some (row_params r skb)) /\
     exists Hf, params_ok (row_params r skb) /\ hash_total (row_params r skb) Hf).
  { destruct Hc as [-> | ->].
    - exists (sk_ref r). split; [apply (parse_accept_ref false); exact Hr|]. exists (row_hash r). split; [apply (p_ok false r Hr)|apply (p_hash HE false r Hr)].
    - exists (sk_fast r). split; [apply (parse_accept_fast false); exact Hr|]. exists (row_hash r). split; [apply (fp_ok false r Hr)|apply (fp_hash HE false r Hr)]. }
  destruct Hx as (skb & Hpo & Hf & Hp & HH). unfold test_wots. rewrite Hpo, bind_ok. cbv zeta.
  set (p := row_params r skb) in *. set (k := p_n p) in *.
  match goal with |- context [wots_pkgen p _ _ ?a] => set (ad := a) end.
  destruct (wots_any p Hf Hp HH (stream rnd k k) (a0 ad) (a1 ad) (a2 ad) (a3 ad) (a4 ad) (stream_length rnd k k) (stream rnd 0 k) (stream rnd (2 * k) k) ad) as (pk & sig & b & c & d & R1 & R2 & R3);
    [apply stream_length|apply stream_bytes; exact Hb|apply stream_length|repeat split|].
  change (map rnd (seq 0 k)) with (stream rnd 0 k). change (map rnd (seq k k)) with (stream rnd k k). change (map rnd (seq (2 * k) k)) with (stream rnd (2 * k) k).
  rewrite R1, bind_ok, R2, bind_ok, R3, bind_ok, differ_refl. reflexivity.
Qed.
