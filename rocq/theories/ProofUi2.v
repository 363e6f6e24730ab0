(** Crash points and sessions of the command-line tools. *)
From Coq Require Import String.
From Verif Require Import Base Lib ModelUtils ModelParams ModelCore ModelCoreFast ModelCommons ModelXmss ModelUi
  SpecRfc SpecParams SpecApi SpecUi ProofUtils ProofHash ProofWots ProofCommons ProofTree ProofCore ProofParams ProofApi ProofHistory ProofMain ProofMain2 ProofUi.

Lemma flush_reach kf pos d sm : pos + List.length d <= List.length kf ->
  let s0 := mkDisk kf [] [] [] [KeyWrite pos d; OutWrite sm; KeyClose; ExitProc] in
  disk_reach s0 (mkDisk kf (positions pos d) sm [] [KeyClose; ExitProc]) /\
  disk_reach s0 (mkDisk (torn kf pos d (List.length d)) [] sm [] []).
Proof.
  intros H s0.
  assert (R1 : disk_reach s0 (mkDisk kf (positions pos d) sm [] [KeyClose; ExitProc])).
  { apply (dr_step s0 (mkDisk kf (positions pos d) [] sm [KeyClose; ExitProc])).
    - apply (dr_step s0 (mkDisk kf (positions pos d) [] [] [OutWrite sm; KeyClose; ExitProc])).
      + apply (dr_step s0 s0); [constructor|]. apply (ds_keywrite kf [] [] [] pos d).
      + apply (ds_outwrite kf _ [] [] sm).
    - pose proof (ds_flush_out kf (positions pos d) [] sm [] [KeyClose; ExitProc]) as Hf. rewrite app_nil_r in Hf. exact Hf. }
  split; [exact R1|].
  destruct (torn_flush kf pos d (positions pos d) H 0 []) as [T1 _]; [lia|rewrite Nat.add_0_r, app_nil_r; reflexivity|].
  assert (Hl : List.length (positions pos d) = List.length d) by (unfold positions; rewrite combine_length, seq_length; lia).
  rewrite torn_0, Hl in T1. cbn [Nat.add] in T1.
  eapply dr_step; [eapply dr_step; [exact R1|apply ds_keyclose]|]. rewrite T1.
  pose proof (ds_exit (torn kf pos d (List.length d)) [] sm [] []) as He. rewrite app_nil_r in He. exact He.
Qed.
Lemma completed_unique kf pos d sm kf' out : pos + List.length d <= List.length kf ->
  disk_reach (mkDisk kf [] [] [] [KeyWrite pos d; OutWrite sm; KeyClose; ExitProc]) (mkDisk kf' [] out [] []) ->
  kf' = torn kf pos d (List.length d) /\ out = sm.
Proof.
  intros H Hr. destruct (crash_inv_reach kf pos d sm _ H Hr) as [k [q [Hk [Hd [Ho Hs]]]]]. cbn in *.
  destruct Hs as [[Ht _]|[[Ht _]|[[Ht _]|[[Ht _]|[_ [-> [-> _]]]]]]]; try discriminate Ht. split; [exact Hd|]. rewrite Ho. apply firstn_all.
Qed.

Section Torn.
Variables (ib h : nat) (i : N).
Hypothesis Hh : (i + 1 < 2 ^ N.of_nat h)%N.
Hypothesis Hib : (2 ^ N.of_nat h <= 256 ^ N.of_nat ib)%N.
(** a torn big-endian counter update never goes back, nor past the last index *)
Lemma torn_index k : k <= ib ->
  let v := os2ip (firstn k (toByte (i + 1) ib) ++ skipn k (toByte i ib)) in (i <= v < 2 ^ N.of_nat h)%N.
Proof.
  intros Hk v. set (b := ib - k). assert (Hs : ib = k + b) by (unfold b; lia).
  assert (Hv : v = ((i + 1) / 256 ^ N.of_nat b * 256 ^ N.of_nat b + i mod 256 ^ N.of_nat b)%N).
  { unfold v. rewrite Hs at 1 2. rewrite !toByte_split, firstn_app_len, skipn_app_len by (now rewrite toByte_length).
    rewrite os2ip_app, !os2ip_toByte, toByte_length. f_equal. f_equal. apply N.mod_small.
    apply N.div_lt_upper_bound; [apply N.pow_nonzero; discriminate|]. rewrite <- N.pow_add_r. replace (N.of_nat b + N.of_nat k)%N with (N.of_nat ib) by lia. lia. }
  rewrite Hv. clear v Hv. set (B := (256 ^ N.of_nat b)%N). assert (HB : (0 < B)%N) by apply pow256_pos.
  pose proof (N.div_mod i B) as D1. pose proof (N.div_mod (i + 1) B) as D2. pose proof (N.mod_lt i B) as L1. pose proof (N.mod_lt (i + 1) B) as L2.
  assert (Hle : (i / B <= (i + 1) / B)%N) by (apply N.div_le_mono; lia).
  destruct (N.eq_dec (i / B) ((i + 1) / B)) as [He|Hne].
  - rewrite <- He. nia.
  - assert (Hz : (i mod B = B - 1)%N) by nia. assert (Hq : ((i + 1) = (i / B + 1) * B)%N) by nia.
    assert (Hq2 : ((i + 1) / B = i / B + 1)%N) by (rewrite Hq at 1; apply N.div_mul; lia). rewrite Hq2, Hz. split; [nia|].
    (* B divides 2^h *)
    destruct (N.le_gt_cases (8 * N.of_nat b) (N.of_nat h)) as [Hc|Hc].
    + assert (Hdiv : (2 ^ N.of_nat h = 2 ^ (N.of_nat h - 8 * N.of_nat b) * B)%N) by (unfold B; rewrite pow256_pow2, <- N.pow_add_r; f_equal; lia).
      rewrite Hq, Hdiv in Hh. rewrite Hdiv. set (Q := (2 ^ (N.of_nat h - 8 * N.of_nat b))%N) in *. clearbody Q.
      apply N.mul_lt_mono_pos_r in Hh; [|exact HB]. nia.
    + assert (2 ^ N.of_nat h <= B)%N by (unfold B; rewrite pow256_pow2; apply N.pow_le_mono_r; lia). exfalso. rewrite Hq in Hh. generalize dependent (i / B)%N. intros; nia.
Qed.
End Torn.

Section Ui.
Context {E : Env}.
Hypothesis HE : env_ok E.
Variables (mt : bool) (rp r : row) (pk sk rest m : bytes).
Hypothesis Hrp : In rp (rows mt).
Hypothesis Hr : In r (rows mt).
Hypothesis Hpk : key_of rp (pk_size rp) pk.
Hypothesis Hsk : key_of r (sk_size r) sk.
Notation kf := (pk ++ sk ++ rest).

Lemma uninit_length k : List.length (uninit k) = k. Proof. unfold uninit. now rewrite map_length, seq_length. Qed.

(** the general shape of a run *)
Lemma sign_tool_any : exists o, sign mt ref_core sk (uninit (sig_size r + List.length m)) (N.to_nat (junk 0)) m = Ok o /\
  List.length (so_sk o) = List.length sk /\ (so_rc o = 0%Z \/ so_rc o = (-2)%Z) /\ key_of r (sk_size r) (so_sk o) /\ so_smlen o <= List.length (so_sm o) /\
  ui_sign mt ref_core true (Some kf) (Some m) =
  Ok (mkUi 0 [KeyWrite (List.length pk + 4) (skipn 4 (so_sk o)); OutWrite (signed_message o); KeyClose; ExitProc]).
Proof.
  destruct (sign_safe HE mt r sk (uninit (sig_size r + List.length m)) (N.to_nat (junk 0)) m Hr Hsk) as [o [Ho [Hrc [Hk [Hl _]]]]]; [rewrite uninit_length; lia|].
  exists o. split; [exact Ho|]. assert (Hlen : List.length (so_sk o) = List.length sk) by (destruct Hk as [-> _], Hsk as [-> _]; reflexivity).
  assert (Hsml : so_smlen o <= List.length (so_sm o)).
  { rewrite Hl, uninit_length.
    destruct (N.lt_trichotomy (sk_index r sk + 1) (2 ^ N.of_nat (r_h r))) as [H|[H|H]].
    - rewrite (sign_row HE mt r Hr sk Hsk _ _ m H) in Ho by (rewrite uninit_length; lia). injection Ho as <-. cbn. lia.
    - rewrite (sign_last_row HE mt r Hr sk Hsk _ _ m H) in Ho by (rewrite uninit_length; lia). injection Ho as <-. cbn. lia.
    - rewrite (sign_exhausted_row mt r Hr sk Hsk) in Ho; [|lia|rewrite uninit_length; lia]. injection Ho as <-. cbn. lia. }
  split; [exact Hlen|]. split; [exact Hrc|]. split; [exact Hk|]. split; [exact Hsml|]. apply (sign_tool mt rp r); assumption.
Qed.

Lemma kf_bound (d : bytes) : List.length d = sk_size r -> List.length pk + 4 + List.length d <= List.length kf.
Proof. intros ->. rewrite !app_length. destruct Hsk as [-> _]. lia. Qed.

Lemma torn_kf (sk' : bytes) k : List.length sk' = List.length sk -> firstn 4 sk' = firstn 4 sk -> k <= sk_size r ->
  torn kf (List.length pk + 4) (skipn 4 sk') k = pk ++ (firstn 4 sk ++ firstn k (skipn 4 sk') ++ skipn (4 + k) sk) ++ rest.
Proof.
  intros Hl Ho Hk. unfold torn. assert (Hs : List.length sk = 4 + sk_size r) by apply Hsk.
  rewrite firstn_app_2, <- !app_assoc. f_equal. rewrite firstn_app. replace (4 - List.length sk) with 0 by lia. cbn [firstn]. rewrite app_nil_r. f_equal. f_equal.
  rewrite skipn_app. replace (List.length pk + 4 + k - List.length pk) with (4 + k) by lia. rewrite (skipn_all2 pk) by lia. cbn [app].
  rewrite skipn_app. replace (4 + k - List.length sk) with 0 by lia. reflexivity.
Qed.
Lemma torn_done (sk' : bytes) : List.length sk' = List.length sk -> firstn 4 sk' = firstn 4 sk ->
  torn kf (List.length pk + 4) (skipn 4 sk') (List.length (skipn 4 sk')) = pk ++ sk' ++ rest.
Proof.
  intros Hl Ho. assert (Hs : List.length sk = 4 + sk_size r) by apply Hsk.
  assert (Hd : List.length (skipn 4 sk') = sk_size r) by (rewrite skipn_length; lia). rewrite Hd, torn_kf by (assumption || lia).
  rewrite (firstn_all2 (skipn 4 sk')) by lia. rewrite (skipn_all2 sk) by lia. rewrite app_nil_r, <- Ho, firstn_skipn. reflexivity.
Qed.

Lemma key_oid_same o : key_of r (sk_size r) o -> firstn 4 o = firstn 4 sk.
Proof. intros [_ [-> _]]. destruct Hsk as [_ [-> _]]. reflexivity. Qed.

(** C39 refuted / completed *)
Lemma tool_crash : exists u o, ui_sign mt ref_core true (Some kf) (Some m) = Ok u /\ ui_exit u = 0%Z /\
  sign mt ref_core sk (uninit (sig_size r + List.length m)) (N.to_nat (junk 0)) m = Ok o /\
  (exists s, crash_state kf u s /\ d_out s = signed_message o /\ d_key s = kf) /\
  completed kf u (pk ++ so_sk o ++ rest) (signed_message o) /\
  (forall s, crash_state kf u s -> ~ In KeyClose (d_todo s) -> d_key s = pk ++ so_sk o ++ rest) /\
  (forall kf' out, completed kf u kf' out -> kf' = pk ++ so_sk o ++ rest /\ out = signed_message o).
Proof.
  destruct sign_tool_any as [o [Ho [Hl [_ [Hk [_ Hu]]]]]]. eexists _, o. split; [exact Hu|]. split; [reflexivity|]. split; [exact Ho|].
  assert (Hd : List.length (skipn 4 (so_sk o)) = sk_size r) by (rewrite skipn_length, Hl; destruct Hsk as [-> _]; lia).
  pose proof (kf_bound _ Hd) as Hb. destruct (flush_reach kf (List.length pk + 4) (skipn 4 (so_sk o)) (signed_message o) Hb) as [F1 F2].
  split; [eexists; split; [exact F1|split; reflexivity]|]. rewrite torn_done in F2 by (assumption || now apply key_oid_same).
  split; [exact F2|]. split.
  - intros s Hs Hnc. destruct (crash_inv_reach _ _ _ _ _ Hb Hs) as [k [q [_ [Hkey [_ Hst]]]]]. rewrite Hkey.
    destruct Hst as [[Ht _]|[[Ht _]|[[Ht _]|[[_ [-> _]]|[_ [-> _]]]]]];
      try (exfalso; apply Hnc; rewrite Ht; cbn; tauto); apply torn_done; assumption || now apply key_oid_same.
  - intros kf' out Hc. destruct (completed_unique _ _ _ _ _ _ Hb Hc) as [-> ->]. rewrite torn_done by (assumption || now apply key_oid_same). auto.
Qed.

(** C46: torn key writes *)
Lemma torn_sk (a b c d : bytes) i k : sk = secret_key r i a b c d -> fields r a b c d -> (i + 1 < 2 ^ N.of_nat (r_h r))%N -> k <= sk_size r ->
  let sk1 := firstn 4 sk ++ firstn k (skipn 4 (secret_key r (i + 1) a b c d)) ++ skipn (4 + k) sk in
  key_of r (sk_size r) sk1 /\ (i <= sk_index r sk1 < 2 ^ N.of_nat (r_h r))%N /\ skipn (4 + idx_size r) sk1 = skipn (4 + idx_size r) sk.
Proof.
  intros Es Hf Hi Hk sk1.
  set (tl := a ++ b ++ c ++ d). set (O := toByte (r_oid r) 4).
  assert (LO : List.length O = 4) by apply toByte_length.
  assert (E1 : secret_key r (i + 1) a b c d = O ++ toByte (i + 1) (idx_size r) ++ tl) by reflexivity.
  assert (E0 : sk = O ++ toByte i (idx_size r) ++ tl) by exact Es.
  assert (Ls : List.length sk = 4 + sk_size r) by apply Hsk.
  set (j := Nat.min k (idx_size r)).
  assert (E2 : sk1 = O ++ (firstn j (toByte (i + 1) (idx_size r)) ++ skipn j (toByte i (idx_size r))) ++ tl).
  { unfold sk1. rewrite E1, E0. rewrite firstn_app_len, skipn_app_len by now symmetry. f_equal.
    rewrite <- (skipn_skipn (A := N)) with (x := k) (y := 4) || rewrite (Nat.add_comm 4 k), <- skipn_skipn. rewrite skipn_app_len by now symmetry.
    rewrite firstn_app, skipn_app, !toByte_length. unfold j. destruct (Nat.le_gt_cases k (idx_size r)).
    - rewrite Nat.min_l by lia. replace (k - idx_size r) with 0 by lia. cbn [firstn skipn]. rewrite app_nil_r, app_assoc. reflexivity.
    - rewrite Nat.min_r by lia. rewrite !(firstn_all2 (toByte _ _)) by (rewrite toByte_length; lia).
      rewrite !(skipn_all2 (toByte _ _)) by (rewrite toByte_length; lia). cbn [app]. rewrite <- app_assoc, firstn_skipn, app_nil_r. reflexivity. }
  set (ix := firstn j (toByte (i + 1) (idx_size r)) ++ skipn j (toByte i (idx_size r))) in *.
  assert (Lx : List.length ix = idx_size r) by (unfold ix; rewrite app_length, firstn_length, skipn_length, !toByte_length; lia).
  assert (Bx : bytes_ok ix) by (apply bytes_ok_app; split; [apply bytes_ok_firstn|apply bytes_ok_skipn]; apply toByte_ok).
  split; [|split].
  - split; [|split].
    + rewrite E2, !app_length, LO, Lx. rewrite E0, !app_length, LO, toByte_length in Ls. lia.
    + rewrite E2. apply firstn_app_len. now symmetry.
    + rewrite E2. rewrite !bytes_ok_app. destruct Hsk as [_ [_ Hbs]]. rewrite E0, !bytes_ok_app in Hbs. tauto.
  - unfold sk_index. rewrite E2, skipn_app_len, firstn_app_len by now symmetry. unfold ix. apply torn_index; [exact Hi|apply (pow_h_le mt r Hr)|lia].
  - rewrite E2, E0, !app_assoc. rewrite !skipn_app_len; [reflexivity|rewrite app_length, LO, toByte_length; reflexivity|rewrite app_length, LO, Lx; reflexivity].
Qed.

Lemma sk_as_secret : exists a b c d, fields r a b c d /\ sk = secret_key r (sk_index r sk) a b c d.
Proof.
  exists (sk_field r 0 sk), (sk_field r 1 sk), (sk_field r 2 sk), (sk_field r 3 sk). split.
  - split; [repeat split; apply sk_fields_length; (exact Hsk || lia)|]. unfold sk_field. destruct Hsk as [_ [_ Hb]]. repeat split; apply bytes_ok_firstn, bytes_ok_skipn, Hb.
  - unfold secret_key. rewrite <- layout_sk. apply (sk_split r sk Hsk).
Qed.

Lemma tool_torn : (sk_index r sk + 1 < 2 ^ N.of_nat (r_h r))%N ->
  exists u, ui_sign mt ref_core true (Some kf) (Some m) = Ok u /\ forall s, crash_state kf u s ->
    exists sk1, d_key s = pk ++ sk1 ++ rest /\ key_of r (sk_size r) sk1 /\
      (sk_index r sk <= sk_index r sk1 < 2 ^ N.of_nat (r_h r))%N /\ skipn (4 + idx_size r) sk1 = skipn (4 + idx_size r) sk.
Proof.
  intros Hi. destruct sk_as_secret as [a [b [c [d [Hf Es]]]]]. destruct sign_tool_any as [o [Ho [Hl [_ [Hk [_ Hu]]]]]]. eexists. split; [exact Hu|].
  pose proof (step_live HE mt r Hr (sk_index r sk) a b c d (mkCall m (uninit (sig_size r + List.length m)) (N.to_nat (junk 0))) Hf Hi) as Hst.
  rewrite <- Es in Hst. unfold call_ok in Hst. cbn [c_m c_sm c_smlen] in Hst. rewrite Hst in Ho by (rewrite uninit_length; lia). injection Ho as <-. cbn [so_sk] in *.
  set (sk' := secret_key r (sk_index r sk + 1) a b c d) in *.
  assert (Hd : List.length (skipn 4 sk') = sk_size r) by (rewrite skipn_length, Hl; destruct Hsk as [-> _]; lia).
  pose proof (kf_bound _ Hd) as Hb. intros s Hs. destruct (crash_inv_reach _ _ _ _ _ Hb Hs) as [k [q [Hkk [Hkey _]]]]. rewrite Hd in Hkk.
  rewrite Hkey, torn_kf by (assumption || now apply key_oid_same).
  eexists. split; [reflexivity|]. exact (torn_sk a b c d (sk_index r sk) k Es Hf Hi Hkk).
Qed.
End Ui.

Section EndToEnd.
Context {E : Env}.
Hypothesis HE : env_ok E.
Variables (mt : bool) (r : row).
Hypothesis Hr : In r (rows mt).
Variables a b ct d : bytes.
Hypothesis Hf : fields r a b ct d.
Hypothesis Hct : ct = mt_root (row_sp r) a d.

Lemma mt_sign_len i m : List.length (mt_sign (row_sp r) a b ct d i m) = sig_size r.
Proof. rewrite <- (p_sig r), <- (sp_of_row r (sk_ref r)). apply (mt_sign_length _ _ (p_ok mt r Hr) (p_hash HE mt r Hr)). Qed.
Lemma mt_sign_bytes i m : bytes_ok (mt_sign (row_sp r) a b ct d i m).
Proof.
  unfold mt_sign. rewrite !bytes_ok_app. split; [apply toByte_ok|].
  pose proof (p_hash HE mt r Hr) as HH. rewrite <- (sp_of_row r (sk_ref r)). split; [apply (Hf_bytes _ _ HH)|].
  apply bytes_ok_concat. apply Forall_forall. intros x Hx. apply in_map_iff in Hx. destruct Hx as [k [<- _]].
  unfold layer_sig. rewrite bytes_ok_app. split; apply bytes_ok_concat, Forall_forall; intros y Hy.
  - unfold wots_sig in Hy. apply in_map_iff in Hy. destruct Hy as [ch [<- _]]. apply (chain_bytes _ _ HH), (Hf_bytes _ _ HH).
  - unfold auth_path in Hy. apply in_map_iff in Hy. destruct Hy as [ch [<- _]]. apply (node_bytes _ _ HH).
Qed.
Lemma pk_is_key : key_of r (pk_size r) (public_key r ct d).
Proof.
  destruct Hf as [[La [Lb [Lc Ld]]] [Ba [Bb [Bc Bd]]]].
  unfold public_key, pk_size. split; [rewrite !app_length, toByte_length; lia|]. split; [apply firstn_app_len; now rewrite toByte_length|].
  rewrite !bytes_ok_app. repeat split; try assumption. apply toByte_ok.
Qed.
Lemma honest_opens c i m mbuf mlen : a_core c -> (i < 2 ^ N.of_nat (r_h r))%N -> bytes_ok m -> sig_size r + List.length m <= List.length mbuf ->
  exists oo, sign_open mt c mbuf mlen (mt_sign (row_sp r) a b ct d i m ++ m) (public_key r ct d) = Ok oo /\ oo_rc oo = 0%Z /\
    oo_mlen oo = List.length m /\ firstn (List.length m) (oo_m oo) = m.
Proof.
  intros Hc Hi Bm Lm. set (sg := mt_sign (row_sp r) a b ct d i m).
  assert (Lsg : List.length sg = sig_size r) by apply mt_sign_len.
  assert (Bsg : bytes_ok sg) by apply mt_sign_bytes.
  pose proof Hf as [[La [Lb [Lc Ld]]] [Ba [Bb [Bc Bd]]]].
  assert (Hv : mt_verify (row_sp r) ct d sg m = true).
  { unfold sg. rewrite Hct. rewrite <- (sp_of_row r (sk_ref r)).
    apply (mt_sign_verifies _ _ (p_ok mt r Hr) (p_hash HE mt r Hr)); rewrite ?row_n, ?row_h; lia || assumption. }
  destruct (open_decides HE mt r c mbuf mlen (sg ++ m) (public_key r ct d) Hr Hc pk_is_key) as [oo [Hoo [_ [Hacc _]]]].
  - rewrite app_length. lia.
  - rewrite bytes_ok_app. auto.
  - rewrite app_length. lia.
  - rewrite (skipn_app_len sg m), (firstn_app_len sg m) in Hacc by lia.
    assert (Hrt : firstn (r_n r) (skipn 4 (public_key r ct d)) = ct).
    { unfold public_key. rewrite skipn_app_len by (now rewrite toByte_length). now apply firstn_app_len. }
    assert (Hsd : skipn (4 + r_n r) (public_key r ct d) = d).
    { unfold public_key. rewrite app_assoc. apply skipn_app_len. rewrite app_length, toByte_length. lia. }
    rewrite Hrt, Hsd in Hacc. destruct (Hacc Hv) as [A1 [A2 A3]]. exists oo. auto.
Qed.

Lemma session_verifies c kf0 rest : a_core c -> kf0 = public_key r ct d ++ rest -> forall ms i rest2,
  (i + N.of_nat (List.length ms) < 2 ^ N.of_nat (r_h r))%N -> Forall bytes_ok ms ->
  exists outs, session mt ref_core (public_key r ct d ++ secret_key r i a b ct d ++ rest2) ms
      (public_key r ct d ++ secret_key r (i + N.of_nat (List.length ms)) a b ct d ++ rest2) outs /\
    Forall2 (fun m out => skipn (sig_size r) out = m /\ ui_open mt c true (Some kf0) (Some out) = Ok (0%Z, VerificationSucceeded)) ms outs.
Proof.
  intros Hc -> ms. induction ms as [|m ms IH]; intros i rest2 Hi Hb.
  - exists []. cbn [List.length N.of_nat]. rewrite N.add_0_r. split; constructor.
  - cbn [List.length] in Hi. inversion Hb as [|? ? Hbm Hbms]; subst x l.
    destruct (IH (i + 1)%N rest2) as [outs [Hses Hall]]; [lia|assumption|].
    assert (Hii : (i < 256 ^ N.of_nat (idx_size r))%N) by (pose proof (pow_h_le mt r Hr); lia).
    pose proof (secret_key_ok r i a b ct d Hf) as Hk.
    destruct (tool_crash HE mt r r (public_key r ct d) (secret_key r i a b ct d) rest2 m Hr Hr pk_is_key Hk) as [u [o [Hu [Hx [Ho [_ [Hcomp _]]]]]]].
    pose proof (step_live HE mt r Hr i a b ct d (mkCall m (uninit (sig_size r + List.length m)) (N.to_nat (junk 0))) Hf) as Hst.
    unfold call_ok in Hst. cbn [c_m c_sm c_smlen] in Hst. rewrite Hst in Ho by (rewrite ?uninit_length; lia). injection Ho as <-. cbn [so_sk] in *.
    assert (Hsm : signed_message (mkSign 0 (secret_key r (i + 1) a b ct d) (mt_sign (row_sp r) a b ct d i m ++ m ++ skipn (sig_size r + List.length m) (uninit (sig_size r + List.length m))) (sig_size r + List.length m)) = mt_sign (row_sp r) a b ct d i m ++ m).
    { unfold signed_message. cbn [so_smlen so_sm]. rewrite app_assoc. apply firstn_app_len. rewrite app_length, mt_sign_len. lia. }
    rewrite Hsm in Hcomp.
    exists ((mt_sign (row_sp r) a b ct d i m ++ m) :: outs). split.
    + eapply ses_cons; [exact Hu|exact Hx|exact Hcomp|]. cbn [List.length]. replace (i + N.of_nat (S (List.length ms)))%N with (i + 1 + N.of_nat (List.length ms))%N by lia. exact Hses.
    + constructor; [|exact Hall]. split; [apply skipn_app_len; now rewrite mt_sign_len|].
      destruct (honest_opens c i m (uninit (List.length (mt_sign (row_sp r) a b ct d i m ++ m))) (N.to_nat (junk 0)) Hc) as [oo [Hoo [Hrc _]]]; [lia|assumption|rewrite uninit_length, app_length, mt_sign_len; lia|].
      rewrite (open_tool mt r c (public_key r ct d) rest _ _ _ Hr Hc pk_is_key eq_refl eq_refl oo Hoo), Hrc. reflexivity.
Qed.
End EndToEnd.

Lemma tools_end_to_end {E : Env} (HE : env_ok E) mt r rnd ms c : In r (rows mt) -> (forall i, (rnd i < 256)%N) -> a_core c ->
  (N.of_nat (List.length ms) < 2 ^ N.of_nat (r_h r))%N -> Forall bytes_ok ms ->
  exists u kf kf' outs, ui_keypair mt ref_core (Some (row_name r)) rnd = Ok u /\ ui_exit u = 0%Z /\ completed [] u [] kf /\
    session mt ref_core kf ms kf' outs /\
    Forall2 (fun m out => skipn (sig_size r) out = m /\ ui_open mt c true (Some kf) (Some out) = Ok (0%Z, VerificationSucceeded)) ms outs.
Proof.
  intros Hr Hb Hc Hl Hm.
  destruct (keypair_exact HE mt r (uninit (4 + pk_size r)) (uninit (4 + sk_size r)) rnd Hr Hb (uninit_length _) (uninit_length _)) as [a [b [ct [d [Hf [Hct [_ Hkp]]]]]]].
  destruct (session_verifies HE mt r Hr a b ct d Hf Hct c (public_key r ct d ++ secret_key r 0 a b ct d ++ []) (secret_key r 0 a b ct d ++ []) Hc eq_refl ms 0%N [] ltac:(lia) Hm) as [outs [Hs Ha]].
  eexists _, _, _, outs. split; [exact (keypair_tool mt r rnd _ _ Hr Hkp)|]. split; [reflexivity|]. split; [|split; [exact Hs|exact Ha]].
  rewrite app_nil_r. unfold completed, crash_state. cbn [ui_acts].
  set (pk := public_key r ct d). set (sk := secret_key r 0 a b ct d).
  eapply dr_step; [eapply dr_step; [eapply dr_step; [constructor|apply (ds_outwrite [] [] [] [] pk)]|apply (ds_outwrite [] [] [] ([] ++ pk) sk)]|].
  cbn [app]. apply (ds_exit [] [] [] (pk ++ sk) []).
Qed.
