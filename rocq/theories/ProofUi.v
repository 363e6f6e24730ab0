(** Proofs about the command-line tools. *)
From Coq Require Import String.
From Verif Require Import Base Lib ModelUtils ModelParams ModelCore ModelCoreFast ModelCommons ModelXmss ModelUi
  SpecRfc SpecParams SpecApi ProofUtils ProofHash ProofCore ProofParams ProofApi.

Section Ui.
Context {E : Env}.

Lemma fread_ok f pos k : pos + k <= List.length f -> fread f pos k = firstn k (skipn pos f).
Proof.
  intros H. unfold fread. assert (Hl : List.length (firstn k (skipn pos f)) = k) by (rewrite firstn_length, skipn_length; lia).
  rewrite Hl. rewrite (skipn_all2 (uninit k)); [now rewrite app_nil_r|]. unfold uninit. now rewrite map_length, seq_length.
Qed.
Lemma fpos_ok f pos k : pos + k <= List.length f -> fpos_after f pos k = pos + k.
Proof. intros H. unfold fpos_after. rewrite firstn_length, skipn_length. lia. Qed.

Lemma oid_read b : List.length b = 4 -> bytes_ok b -> bytes_to_ull b = Ok (os2ip b) /\ u32 (os2ip b) = os2ip b.
Proof.
  intros Hl Hb. split; [apply bytes_to_ull_spec; [lia|exact Hb]|]. unfold u32. apply N.mod_small. pose proof (os2ip_lt b Hb) as H. rewrite Hl in H. exact H.
Qed.

(** C41 *)
Lemma keypair_unknown mt c s rnd : ~ In s (map row_name (rows mt)) -> ui_keypair mt c (Some s) rnd = Ok (mkUi (-1) [ExitProc]).
Proof.
  intros Hs. unfold ui_keypair. fold (ProofParams.str_to_oid mt). change (ui_str_to_oid mt s) with (ProofParams.str_to_oid mt s).
  destruct (ProofParams.str_to_oid mt s) as [o|] eqn:Eo.
  - exfalso. apply str_to_oid_spec in Eo. destruct Eo as [r [H1 [H2 _]]]. apply Hs. rewrite <- H2. now apply in_map.
  - change (ui_parse_oid mt) with (ProofParams.parse_oid mt). rewrite parse_reject; [reflexivity|]. 
    destruct mt; vm_compute; intuition discriminate.
Qed.
Lemma sign_unknown mt c kf m : 4 <= List.length kf -> bytes_ok kf -> ~ In (os2ip (firstn 4 kf)) (map r_oid (rows mt)) ->
  ui_sign mt c true (Some kf) (Some m) = Ok (mkUi (-1) [KeyClose; ExitProc]).
Proof.
  intros Hl Hb Hn. unfold ui_sign. cbn [negb]. rewrite fread_ok by exact Hl. cbn [skipn]. change XMSS_OID_LEN with 4.
  destruct (oid_read (firstn 4 kf)) as [H1 H2]; [rewrite firstn_length; lia|now apply bytes_ok_firstn|]. rewrite H1. cbn [bind]. rewrite H2.
  change (ui_parse_oid mt) with (ProofParams.parse_oid mt). rewrite parse_reject by exact Hn. reflexivity.
Qed.
Lemma open_unknown mt c kf smf : 4 <= List.length kf -> bytes_ok kf -> ~ In (os2ip (firstn 4 kf)) (map r_oid (rows mt)) ->
  ui_open mt c true (Some kf) (Some smf) = Ok ((-1)%Z, NoVerdict).
Proof.
  intros Hl Hb Hn. unfold ui_open. cbn [negb]. rewrite fread_ok by exact Hl. cbn [skipn]. change XMSS_OID_LEN with 4.
  destruct (oid_read (firstn 4 kf)) as [H1 H2]; [rewrite firstn_length; lia|now apply bytes_ok_firstn|]. rewrite H1. cbn [bind]. rewrite H2.
  change (ui_parse_oid mt) with (ProofParams.parse_oid mt). rewrite parse_reject by exact Hn. reflexivity.
Qed.

Lemma oid_row mt r b : In r (rows mt) -> firstn 4 b = toByte (r_oid r) 4 -> os2ip (firstn 4 b) = r_oid r.
Proof.
  intros Hr ->. rewrite os2ip_toByte. apply N.mod_small. pose proof (row_oid_small mt r Hr). change (256 ^ N.of_nat 4)%N with 4294967296%N. lia.
Qed.
Lemma row_pk_size r skb : pk_bytes (row_params r skb) = pk_size r.
Proof. rewrite row_pk, row_n. reflexivity. Qed.

Lemma sign_unknown_sk mt c rp skb kf m : In rp (rows mt) ->
  (forall p0, ProofParams.parse_oid mt (c_sk_bytes c) p0 (r_oid rp) = Ok (Some (row_params rp skb))) ->
  firstn 4 kf = toByte (r_oid rp) 4 -> 4 + pk_size rp + 4 <= List.length kf -> bytes_ok kf ->
  ~ In (os2ip (firstn 4 (skipn (4 + pk_size rp) kf))) (map r_oid (rows mt)) ->
  ui_sign mt c true (Some kf) (Some m) = Ok (mkUi (-1) [KeyClose; ExitProc]).
Proof.
  intros Hr Hp Ho Hl Hb Hn. unfold ui_sign. cbn [negb]. change XMSS_OID_LEN with 4. rewrite fread_ok by lia. cbn [skipn].
  destruct (oid_read (firstn 4 kf)) as [H1 H2]; [rewrite firstn_length; lia|now apply bytes_ok_firstn|]. rewrite H1. cbn [bind]. rewrite H2.
  rewrite (oid_row mt rp) by assumption. change (ui_parse_oid mt) with (ProofParams.parse_oid mt). rewrite Hp. cbn [bind]. rewrite fpos_ok by lia. rewrite row_pk_size.
  rewrite fread_ok by (cbn [Nat.add]; lia). change (0 + 4) with 4.
  destruct (oid_read (firstn 4 (skipn (4 + pk_size rp) kf))) as [H3 H4]; [rewrite firstn_length, skipn_length; lia|now apply bytes_ok_firstn, bytes_ok_skipn|].
  rewrite H3. cbn [bind]. rewrite H4, parse_reject by exact Hn. reflexivity.
Qed.

(** a key file: public key, secret key, anything *)
Lemma sign_tool mt rp r pk sk rest m o : In rp (rows mt) -> In r (rows mt) ->
  key_of rp (pk_size rp) pk -> key_of r (sk_size r) sk ->
  sign mt ref_core sk (uninit (sig_size r + List.length m)) (N.to_nat (junk 0)) m = Ok o ->
  List.length (so_sk o) = List.length sk -> so_smlen o <= List.length (so_sm o) ->
  ui_sign mt ref_core true (Some (pk ++ sk ++ rest)) (Some m) =
  Ok (mkUi 0 [KeyWrite (List.length pk + 4) (skipn 4 (so_sk o)); OutWrite (signed_message o); KeyClose; ExitProc]).
Proof.
  intros Hrp Hr [P1 [P2 P3]] [S1 [S2 S3]] Hs Hlsk Hlsm. unfold ui_sign. cbn [negb]. change XMSS_OID_LEN with 4.
  assert (Hl : List.length (pk ++ sk ++ rest) = 4 + pk_size rp + (4 + sk_size r) + List.length rest) by (rewrite !app_length; lia).
  set (kf := pk ++ sk ++ rest) in *.
  assert (F1 : firstn 4 kf = firstn 4 pk). { unfold kf. rewrite firstn_app, P1. replace (4 - (4 + pk_size rp)) with 0 by lia. cbn [firstn]. now rewrite app_nil_r. }
  assert (F2 : skipn (4 + pk_size rp) kf = sk ++ rest). { unfold kf. rewrite <- P1. now rewrite skipn_app_len. }
  rewrite fread_ok by lia. cbn [skipn]. rewrite F1.
  destruct (oid_read (firstn 4 pk)) as [H1 H2]; [rewrite firstn_length; lia|now apply bytes_ok_firstn|]. rewrite H1. cbn [bind]. rewrite H2.
  rewrite (oid_row mt rp) by assumption. change (ui_parse_oid mt) with (ProofParams.parse_oid mt). rewrite fpos_ok by lia. change (0 + 4) with 4.
  change (c_sk_bytes ref_core) with ref_core_sk_bytes. rewrite parse_accept_ref by assumption. cbn [bind]. rewrite row_pk_size.
  rewrite fread_ok by lia. rewrite F2.
  assert (F3 : firstn 4 (sk ++ rest) = firstn 4 sk). { rewrite firstn_app, S1. replace (4 - (4 + sk_size r)) with 0 by lia. cbn [firstn]. now rewrite app_nil_r. }
  rewrite F3. destruct (oid_read (firstn 4 sk)) as [H3 H4]; [rewrite firstn_length; lia|now apply bytes_ok_firstn|]. rewrite H3. cbn [bind]. rewrite H4.
  rewrite (oid_row mt r) by assumption. rewrite parse_accept_ref by assumption. cbn [bind].
  rewrite fpos_ok by lia. replace (4 + pk_size rp + 4 - 4) with (4 + pk_size rp) by lia.
  rewrite (p_sk r), (p_sig r). rewrite fread_ok by lia. rewrite F2, <- S1, firstn_app_len by reflexivity.
  change (ui_sign_fn mt ref_core) with (sign mt ref_core). rewrite Hs. cbn [bind].
  rewrite fpos_ok by lia. destruct (Nat.leb_spec (sk_size r) (4 + pk_size rp + List.length sk)); [|lia].
  rewrite rd_ok by lia. cbn [bind]. rewrite rd_ok by (cbn [Nat.add]; lia). cbn [bind]. change (skipn 0 (so_sm o)) with (so_sm o). change XMSS_OID_LEN with 4.
  rewrite firstn_all2 by (rewrite skipn_length; lia). replace (4 + pk_size rp + List.length sk - sk_size r) with (List.length pk + 4) by lia. reflexivity.
Qed.

(** C47 *)
Lemma open_tool mt r c pk rest smf mb ml : In r (rows mt) -> a_core c -> key_of r (pk_size r) pk ->
  mb = uninit (List.length smf) -> ml = N.to_nat (junk 0) ->
  forall o, sign_open mt c mb ml smf pk = Ok o ->
  ui_open mt c true (Some (pk ++ rest)) (Some smf) = Ok (oo_rc o, if Z.eqb (oo_rc o) 0 then VerificationSucceeded else VerificationFailed).
Proof.
  intros Hr Hc [P1 [P2 P3]] -> -> o Ho. unfold ui_open. cbn [negb]. change XMSS_OID_LEN with 4.
  rewrite fread_ok by (rewrite app_length; lia). cbn [skipn].
  assert (F1 : firstn 4 (pk ++ rest) = firstn 4 pk). { rewrite firstn_app, P1. replace (4 - (4 + pk_size r)) with 0 by lia. cbn [firstn]. now rewrite app_nil_r. }
  rewrite F1. destruct (oid_read (firstn 4 pk)) as [H1 H2]; [rewrite firstn_length; lia|now apply bytes_ok_firstn|]. rewrite H1. cbn [bind]. rewrite H2.
  rewrite (oid_row mt r) by assumption. change (ui_parse_oid mt) with (ProofParams.parse_oid mt).
  assert (Hp : exists skb, ProofParams.parse_oid mt (c_sk_bytes c) uninit_params (r_oid r) = Ok (Some (row_params r skb))).
  { destruct Hc as [->| ->]; [exists (sk_ref r); now apply parse_accept_ref|exists (sk_fast r); now apply parse_accept_fast]. }
  destruct Hp as [skb ->]. cbn [bind]. rewrite row_pk_size. rewrite fread_ok by (rewrite app_length; lia). cbn [skipn].
  rewrite <- P1, firstn_app_len by reflexivity. change (ui_open_fn mt c) with (sign_open mt c). rewrite Ho. reflexivity.
Qed.

Lemma keypair_tool mt r rnd pk sk : In r (rows mt) ->
  keypair mt ref_core (uninit (4 + pk_size r)) (uninit (4 + sk_size r)) (r_oid r) rnd = Ok (0%Z, pk, sk) ->
  ui_keypair mt ref_core (Some (row_name r)) rnd = Ok (mkUi 0 [OutWrite pk; OutWrite sk; ExitProc]).
Proof.
  intros Hr Hk. unfold ui_keypair. change (ui_str_to_oid mt (row_name r)) with (ProofParams.str_to_oid mt (row_name r)).
  rewrite (proj2 (str_to_oid_spec mt (row_name r) (r_oid r))) by eauto. change (ui_parse_oid mt) with (ProofParams.parse_oid mt).
  change (c_sk_bytes ref_core) with ref_core_sk_bytes. rewrite parse_accept_ref by assumption. cbn [bind]. rewrite row_pk_size, (p_sk r).
  change XMSS_OID_LEN with 4. change (ui_keypair_fn mt ref_core) with (keypair mt ref_core). rewrite Hk. reflexivity.
Qed.
End Ui.

(** ** The disk *)
Definition torn (kf : bytes) (pos : nat) (d : bytes) (k : nat) : bytes := firstn pos kf ++ firstn k d ++ skipn (pos + k) kf.

Lemma torn_0 kf pos d : torn kf pos d 0 = kf.
Proof. unfold torn. cbn [firstn app]. rewrite Nat.add_0_r. apply firstn_skipn. Qed.
Lemma torn_length kf pos d k : pos + List.length d <= List.length kf -> k <= List.length d -> List.length (torn kf pos d k) = List.length kf.
Proof. intros. unfold torn. rewrite !app_length, !firstn_length, skipn_length. lia. Qed.
Lemma torn_put kf pos d k : pos + List.length d <= List.length kf -> k < List.length d -> put (torn kf pos d k) (pos + k) (nth k d 0%N) = torn kf pos d (S k).
Proof.
  intros H Hk. unfold put. rewrite torn_length by lia. destruct (Nat.ltb_spec (pos + k) (List.length kf)); [|lia].
  unfold torn. rewrite (firstn_S_nth 0%N) by exact Hk. rewrite (skipn_nth 0%N kf (pos + k)) by lia.
  rewrite !app_assoc. rewrite <- (app_assoc _ [nth k d 0%N]). 
  assert (Hl : List.length (firstn pos kf ++ firstn k d) = pos + k) by (rewrite app_length, !firstn_length; lia).
  rewrite upd_app_mid by now rewrite Hl. now rewrite Nat.add_succ_r.
Qed.
Lemma torn_flush kf pos d a : pos + List.length d <= List.length kf -> forall k b, k <= List.length d ->
  a ++ b = positions (pos + k) (skipn k d) ->
  put_all (torn kf pos d k) a = torn kf pos d (k + List.length a) /\ k + List.length a <= List.length d /\ b = positions (pos + (k + List.length a)) (skipn (k + List.length a) d).
Proof.
  intros H. induction a as [|q a IH]; intros k b Hk He.
  - cbn [app] in He. cbn [List.length put_all fold_left]. rewrite Nat.add_0_r. auto.
  - destruct (Nat.eq_dec k (List.length d)) as [->|Hn]; [rewrite skipn_all in He; discriminate He|].
    rewrite (skipn_nth 0%N) in He by lia. unfold positions in He. cbn [List.length seq combine app] in He. injection He as -> He.
    unfold put_all. cbn [fold_left fst snd]. rewrite torn_put by lia.
    destruct (IH (S k) b) as [I1 [I2 I3]]; [lia|rewrite Nat.add_succ_r; exact He|].
    cbn [List.length]. replace (k + S (List.length a)) with (S k + List.length a) by lia. split; [exact I1|]. split; [exact I2|exact I3].
Qed.

(** what a crash can leave of a run of the sign tool *)
Definition crash_inv (kf : bytes) (pos : nat) (d sm : bytes) (s : disk) : Prop :=
  exists k q, k <= List.length d /\ d_key s = torn kf pos d k /\ d_out s = firstn q sm /\
    (  (d_todo s = [KeyWrite pos d; OutWrite sm; KeyClose; ExitProc] /\ k = 0 /\ q = 0 /\ d_keybuf s = [] /\ d_outbuf s = [])
    \/ (d_todo s = [OutWrite sm; KeyClose; ExitProc] /\ q = 0 /\ d_keybuf s = positions (pos + k) (skipn k d) /\ d_outbuf s = [])
    \/ (d_todo s = [KeyClose; ExitProc] /\ d_keybuf s = positions (pos + k) (skipn k d) /\ d_outbuf s = skipn q sm)
    \/ (d_todo s = [ExitProc] /\ k = List.length d /\ d_keybuf s = [] /\ d_outbuf s = skipn q sm)
    \/ (d_todo s = [] /\ k = List.length d /\ q = List.length sm /\ d_keybuf s = [] /\ d_outbuf s = [])).

Lemma out_flush (sm a b : bytes) q : a ++ b = skipn q sm -> firstn q sm ++ a = firstn (q + List.length a) sm /\ b = skipn (q + List.length a) sm.
Proof.
  intros He. assert (Ha : a = firstn (List.length a) (skipn q sm)) by (rewrite <- He; now rewrite firstn_app_len).
  assert (Hb : b = skipn (List.length a) (skipn q sm)) by (rewrite <- He; now rewrite skipn_app_len).
  split.
  - rewrite Ha at 1. clear. revert q. induction sm as [|x sm IH]; intros [|q]; cbn; try reflexivity; [now rewrite firstn_nil|]. now rewrite IH.
  - rewrite Hb at 1. rewrite skipn_skipn. f_equal. lia.
Qed.

Lemma crash_inv_step kf pos d sm s s' : pos + List.length d <= List.length kf -> crash_inv kf pos d sm s -> disk_step s s' -> crash_inv kf pos d sm s'.
Proof.
  intros H [k [q [Hk [Hd [Ho Hs]]]]] Hst. destruct Hst as [ky a b o ob t|ky kb o a b t|ky kb o ob ps dt t|ky kb o ob dt t|ky kb o ob t|ky kb o ob t];
    cbn [d_key d_out d_todo d_keybuf d_outbuf] in *; unfold crash_inv; cbn [d_key d_out d_todo d_keybuf d_outbuf].
  - destruct Hs as [[Ht [K1 [K2 [K3 K4]]]]|[[Ht [K1 [K2 K3]]]|[[Ht [K1 K2]]|[[Ht [K1 [K2 K3]]]|[Ht [K1 [K2 [K3 K4]]]]]]]].
    + apply app_eq_nil in K3. destruct K3 as [-> ->]. exists k, q. cbn. split; [exact Hk|]. split; [exact Hd|]. split; [exact Ho|]. left. auto.
    + destruct (torn_flush kf pos d a H k b Hk K2) as [I1 [I2 I3]]. exists (k + List.length a), q. rewrite Hd. split; [exact I2|]. split; [exact I1|]. split; [exact Ho|]. right. left. auto.
    + destruct (torn_flush kf pos d a H k b Hk K1) as [I1 [I2 I3]]. exists (k + List.length a), q. rewrite Hd. split; [exact I2|]. split; [exact I1|]. split; [exact Ho|]. right. right. left. auto.
    + apply app_eq_nil in K2. destruct K2 as [-> ->]. exists k, q. cbn. split; [exact Hk|]. split; [exact Hd|]. split; [exact Ho|]. right. right. right. left. auto.
    + apply app_eq_nil in K3. destruct K3 as [-> ->]. exists k, q. cbn. split; [exact Hk|]. split; [exact Hd|]. split; [exact Ho|]. right. right. right. right. auto.
  - destruct Hs as [[Ht [K1 [K2 [K3 K4]]]]|[[Ht [K1 [K2 K3]]]|[[Ht [K1 K2]]|[[Ht [K1 [K2 K3]]]|[Ht [K1 [K2 [K3 K4]]]]]]]].
    + apply app_eq_nil in K4. destruct K4 as [-> ->]. exists k, q. rewrite app_nil_r. split; [exact Hk|]. split; [exact Hd|]. split; [exact Ho|]. left. auto.
    + apply app_eq_nil in K3. destruct K3 as [-> ->]. exists k, q. rewrite app_nil_r. split; [exact Hk|]. split; [exact Hd|]. split; [exact Ho|]. right. left. auto.
    + destruct (out_flush sm a b q K2) as [I1 I2]. exists k, (q + List.length a). rewrite Ho. split; [exact Hk|]. split; [exact Hd|]. split; [exact I1|]. right. right. left. auto.
    + destruct (out_flush sm a b q K3) as [I1 I2]. exists k, (q + List.length a). rewrite Ho. split; [exact Hk|]. split; [exact Hd|]. split; [exact I1|]. right. right. right. left. auto.
    + apply app_eq_nil in K4. destruct K4 as [-> ->]. exists k, q. rewrite app_nil_r. split; [exact Hk|]. split; [exact Hd|]. split; [exact Ho|]. right. right. right. right. auto.
  - destruct Hs as [[Ht [K1 [K2 [K3 K4]]]]|[[Ht _]|[[Ht _]|[[Ht _]|[Ht _]]]]]; try discriminate Ht. injection Ht as -> -> ->. subst.
    exists 0, 0. split; [lia|]. split; [reflexivity|]. split; [reflexivity|]. right. left. cbn [skipn app]. rewrite Nat.add_0_r. auto.
  - destruct Hs as [[Ht _]|[[Ht [K1 [K2 K3]]]|[[Ht _]|[[Ht _]|[Ht _]]]]]; try discriminate Ht. injection Ht as -> ->. subst.
    exists k, 0. split; [exact Hk|]. split; [reflexivity|]. split; [reflexivity|]. right. right. left. auto.
  - destruct Hs as [[Ht _]|[[Ht _]|[[Ht [K1 K2]]|[[Ht _]|[Ht _]]]]]; try discriminate Ht. injection Ht as ->. subst ky.
    destruct (torn_flush kf pos d kb H k [] Hk) as [I1 [I2 I3]]; [now rewrite app_nil_r|].
    assert (Hend : k + List.length kb = List.length d).
    { rewrite K1. unfold positions. rewrite combine_length, seq_length, skipn_length. lia. }
    exists (List.length d), q. split; [lia|]. rewrite I1, Hend. split; [reflexivity|]. split; [exact Ho|]. right. right. right. left. auto.
  - destruct Hs as [[Ht _]|[[Ht _]|[[Ht _]|[[Ht [K1 [K2 K3]]]|[Ht _]]]]]; try discriminate Ht. injection Ht as ->. subst.
    exists (List.length d), (List.length sm). split; [lia|]. cbn [put_all fold_left]. split; [reflexivity|]. split; [rewrite firstn_skipn, firstn_all; reflexivity|]. right. right. right. right. auto.
Qed.
Lemma crash_inv_reach kf pos d sm s : pos + List.length d <= List.length kf ->
  disk_reach (mkDisk kf [] [] [] [KeyWrite pos d; OutWrite sm; KeyClose; ExitProc]) s -> crash_inv kf pos d sm s.
Proof.
  intros H Hr. induction Hr as [|s1 s2 Hr IH Hs]; [|eapply crash_inv_step; eauto].
  exists 0, 0. rewrite torn_0. cbn. split; [lia|]. split; [reflexivity|]. split; [reflexivity|]. left. auto.
Qed.
