(** The public API (xmss.c) on accepted and rejected OIDs, reference core. *)
From Verif Require Import Base Lib ModelUtils ModelParams ModelHash ModelWots ModelCommons ModelCore ModelCoreFast ModelXmss
  SpecRfc SpecParams SpecApi ProofUtils ProofHash ProofWots ProofCommons ProofTree ProofCore ProofParams.

Lemma oid_to_bytes_spec oid : oid_to_bytes oid = toByte oid 4.
Proof.
  unfold oid_to_bytes. rewrite !land_255, !N.shiftr_div_pow2. unfold toByte. cbn [seq map Nat.sub N.of_nat].
  cbn. now rewrite N.div_1_r.
Qed.

Lemma oid_of_bytes_spec b : 4 <= length b -> bytes_ok (firstn 4 b) -> (nth 0 b 0 < 128)%N ->
  oid_of_bytes b = Ok (os2ip (firstn 4 b)).
Proof.
  intros Hl Hb H0. do 4 (destruct b as [|? b]; [cbn in Hl; lia|]). cbn [firstn nth] in *.
  unfold oid_of_bytes. cbn [rdc nth_error bind]. destruct (N.leb_spec 128 n) as [H|_]; [lia|].
  f_equal. inversion Hb as [|? ? B0 Hb1]; inversion Hb1 as [|? ? B1 Hb2]; inversion Hb2 as [|? ? B2 Hb3]; inversion Hb3 as [|? ? B3 _]; subst.
  unfold os2ip. cbn [fold_left].
  rewrite (N.lor_comm n2), lor_shift_add by (change (2 ^ 8)%N with 256%N; exact B3).
  rewrite (N.lor_comm _ (N.shiftl n0 16)), lor_shift_add by (change (2 ^ 16)%N with (256 * 256)%N; change (2 ^ 8)%N with 256%N; lia).
  rewrite N.lor_comm, lor_shift_add; [lia|].
  change (2 ^ 16)%N with 65536%N; change (2 ^ 8)%N with 256%N; change (2 ^ 24)%N with 16777216%N; lia.
Qed.
Lemma oid_of_bytes_ub b : 4 <= length b -> (128 <= nth 0 b 0)%N -> oid_of_bytes b = UB.
Proof.
  intros Hl H0. do 4 (destruct b as [|? b]; [cbn in Hl; lia|]). cbn [nth] in H0.
  unfold oid_of_bytes. cbn [rdc nth_error bind]. destruct (N.leb_spec 128 n) as [_|H]; [reflexivity|lia].
Qed.

Lemma row_oid_small mt r : In r (rows mt) -> (r_oid r < 128)%N.
Proof. intros Hr. apply N.ltb_lt. revert r Hr. apply forallb_forall. destruct mt; vm_compute; reflexivity. Qed.
Lemma row_oid_bytes mt r x : In r (rows mt) -> oid_of_bytes (toByte (r_oid r) 4 ++ x) = Ok (r_oid r).
Proof.
  intros Hr. pose proof (row_oid_small mt r Hr) as Ho.
  rewrite oid_of_bytes_spec.
  - rewrite firstn_app_len by (now rewrite toByte_length). rewrite os2ip_toByte, N.mod_small; [reflexivity|].
    change (256 ^ N.of_nat 4)%N with 4294967296%N. lia.
  - rewrite app_length, toByte_length. lia.
  - rewrite firstn_app_len by (now rewrite toByte_length). apply toByte_ok.
  - unfold toByte. cbn. change (256 * (256 * 256))%N with 16777216%N || idtac. 
    rewrite N.div_small by lia. reflexivity.
Qed.

Lemma toByte_0 k : toByte 0 k = repeat 0%N k.
Proof.
  unfold toByte. assert (H : forall l : list nat, map (fun i => (0 / 256 ^ N.of_nat (k - 1 - i)) mod 256)%N l = repeat 0%N (length l)).
  { induction l as [|x l IH]; [reflexivity|]. cbn [map length repeat]. rewrite IH. rewrite N.div_0_l by (apply N.pow_nonzero; discriminate). reflexivity. }
  now rewrite H, seq_length.
Qed.

Section Row.
Context {E : Env}.
Hypothesis HE : env_ok E.
Variable (mt : bool) (r : row).
Hypothesis Hr : In r (rows mt).
Notation p := (row_params r (sk_ref r)).
Notation P := (row_sp r).
Notation n := (r_n r).

Lemma p_ok : params_ok p. Proof. apply (row_params_ok mt); [exact Hr|lia]. Qed.
Lemma p_hash : hash_total p (row_hash r). Proof. now apply (row_hash_total mt). Qed.
Lemma p_ib : index_bytes p = idx_size r. Proof. rewrite (row_ib _ _ (row_hash r)), sp_of_row. reflexivity. Qed.
Lemma p_th : tree_height p = sp_th P. Proof. rewrite (row_th _ _ (row_hash r)), sp_of_row. reflexivity. Qed.
Lemma p_len : wots_len p = sp_len P. Proof. rewrite (row_len _ _ (row_hash r)), sp_of_row. reflexivity. Qed.
Lemma p_sig : ModelParams.sig_bytes p = sig_size r.
Proof. rewrite row_sig, p_ib, p_len, p_th, row_n, row_dd. unfold sig_size, sp_sig_bytes. change (sp_n P) with n. change (sp_d P) with (r_d r). unfold idx_size. lia. Qed.
Lemma p_sk : ModelParams.sk_bytes p = sk_size r.
Proof. rewrite row_sk, (sk_ref_eq r (sk_ref r)), p_ib, row_n. reflexivity. Qed.
Lemma p_h : full_height p = r_h r. Proof. apply row_h. Qed.
Lemma idx_size_le : idx_size r <= 8 /\ r_h r <= 8 * idx_size r.
Proof. rewrite <- p_ib, <- p_h. apply po_ib_le, p_ok. Qed.

Lemma keypair_eq pk sk rnd :
  keypair mt ref_core pk sk (r_oid r) rnd =
  (let* pk := wr pk 0 (oid_to_bytes (r_oid r)) in
   let* sk := wr sk 0 (oid_to_bytes (r_oid r)) in
   let* (rc, pk', sk') := ref_xmssmt_core_keypair p (skipn XMSS_OID_LEN pk) (skipn XMSS_OID_LEN sk) rnd in
   Ok (rc, firstn XMSS_OID_LEN pk ++ pk', firstn XMSS_OID_LEN sk ++ sk')).
Proof.
  pose proof (parse_accept_ref mt r uninit_params Hr) as Hp.
  unfold keypair. destruct mt; unfold xmssmt_keypair, xmss_keypair, keypair_wrapper; cbn [ref_core c_sk_bytes c_xmss_keypair c_xmssmt_keypair];
    unfold ProofParams.parse_oid in Hp; rewrite Hp, bind_ok; reflexivity.
Qed.
Lemma sign_eq x sm smlen m :
  sign mt ref_core (toByte (r_oid r) 4 ++ x) sm smlen m =
  (let* o := ref_xmssmt_core_sign p x sm smlen m in
   Ok (mkSign (so_rc o) (toByte (r_oid r) 4 ++ so_sk o) (so_sm o) (so_smlen o))).
Proof.
  pose proof (parse_accept_ref mt r uninit_params Hr) as Hp. pose proof (row_oid_bytes mt r x Hr) as Ho.
  unfold sign. destruct mt; unfold xmssmt_sign, xmss_sign, sign_wrapper; cbn [ref_core c_sk_bytes c_xmss_sign c_xmssmt_sign];
    rewrite Ho, bind_ok; unfold ProofParams.parse_oid in Hp; rewrite Hp, bind_ok; reflexivity.
Qed.
Lemma open_eq c m mlen sm x skb : parse_oid mt (c_sk_bytes c) uninit_params (r_oid r) = Ok (Some (row_params r skb)) ->
  sign_open mt c m mlen sm (toByte (r_oid r) 4 ++ x) = xmssmt_core_sign_open (row_params r skb) m sm x.
Proof.
  pose proof (row_oid_bytes mt r x Hr) as Ho.
  intros Hc. unfold sign_open. destruct mt; unfold xmssmt_sign_open, xmss_sign_open, open_wrapper; rewrite Ho, bind_ok;
    unfold parse_oid in Hc; rewrite Hc, bind_ok; reflexivity.
Qed.

(** ** Key generation *)
Lemma keypair_row pk sk rnd : 4 + pk_size r <= length pk -> 4 + sk_size r <= length sk ->
  let sks := rand_take rnd 0 n in
  let prfk := rand_take rnd n n in
  let seed := rand_take rnd (2 * n) n in
  let rt := mt_root P sks seed in
  keypair mt ref_core pk sk (r_oid r) rnd =
  Ok (0%Z, public_key r rt seed ++ skipn (4 + pk_size r) pk,
           secret_key r 0 sks prfk rt seed ++ skipn (4 + sk_size r) sk).
Proof.
  intros Hpk Hsk. cbv zeta. rewrite keypair_eq, oid_to_bytes_spec. unfold pk_size, sk_size in *.
  assert (Hw : forall b, 4 <= length b -> wr b 0 (toByte (r_oid r) 4) = Ok (toByte (r_oid r) 4 ++ skipn 4 b)).
  { intros b Hb. unfold wr. rewrite toByte_length. cbn [Nat.add]. destruct (Nat.leb_spec 4 (length b)); [reflexivity|lia]. }
  rewrite Hw by lia. rewrite bind_ok. rewrite Hw by lia. rewrite bind_ok. unfold XMSS_OID_LEN.
  rewrite !(skipn_app_len (toByte (r_oid r) 4)), !(firstn_app_len (toByte (r_oid r) 4)) by (now rewrite toByte_length).
  pose proof (keypair_spec p (row_hash r) p_ok p_hash (skipn 4 pk) (skipn 4 sk) rnd) as Hk.
  rewrite !skipn_length, sp_of_row in Hk. rewrite row_n, p_ib in Hk. specialize (Hk ltac:(lia) ltac:(lia)). cbv zeta in Hk.
  rewrite Hk, bind_ok. rewrite !skipn_skipn.
  unfold public_key, secret_key. rewrite <- !app_assoc.
  replace (2 * n + 4) with (4 + 2 * n) by lia. replace (idx_size r + 4 * n + 4) with (4 + (idx_size r + 4 * n)) by lia.
  rewrite toByte_0. reflexivity.
Qed.

(** ** Signing *)
Section Sign.
Variable sk : bytes.
Hypothesis Hkey : key_of r (sk_size r) sk.
Notation idx := (sk_index r sk).
Notation sks := (sk_field r 0 sk).
Notation prfk := (sk_field r 1 sk).
Notation rt := (sk_field r 2 sk).
Notation seed := (sk_field r 3 sk).

Lemma cut_field (b : bytes) k : k <= length b -> b = firstn k b ++ skipn k b.
Proof. intros _. symmetry. apply firstn_skipn. Qed.

Lemma sk_fields_length i : i < 4 -> length (sk_field r i sk) = n.
Proof.
  intros Hi. destruct Hkey as [Hl _]. unfold sk_size in Hl. unfold sk_field. rewrite firstn_length, skipn_length.
  assert (i * n <= 3 * n) by nia. lia.
Qed.
Lemma sk_split : sk = toByte (r_oid r) 4 ++ sk_layout (toByte idx (idx_size r)) sks prfk rt seed [].
Proof.
  destruct Hkey as [Hl [Ho Hb]]. unfold sk_size in Hl.
  rewrite <- Ho. rewrite <- (firstn_skipn 4 sk) at 1. f_equal.
  assert (Hi : toByte idx (idx_size r) = firstn (idx_size r) (skipn 4 sk)).
  { unfold sk_index. assert (Hil : length (firstn (idx_size r) (skipn 4 sk)) = idx_size r) by (rewrite firstn_length, skipn_length; lia).
    rewrite <- Hil at 2. apply toByte_os2ip. now apply bytes_ok_firstn, bytes_ok_skipn. }
  rewrite Hi. unfold sk_layout, sk_field.
  rewrite <- (firstn_skipn (idx_size r) (skipn 4 sk)) at 1. f_equal. rewrite skipn_skipn.
  assert (Hc : forall o x, firstn n (skipn o sk) ++ skipn n (skipn o sk) ++ x = skipn o sk ++ x) by (intros o x; now rewrite app_assoc, firstn_skipn).
  replace (4 + idx_size r + 0 * n) with (idx_size r + 4) by lia.
  rewrite <- (firstn_skipn n (skipn (idx_size r + 4) sk)) at 1. f_equal. rewrite skipn_skipn.
  replace (4 + idx_size r + 1 * n) with (n + (idx_size r + 4)) by lia.
  rewrite <- (firstn_skipn n (skipn (n + (idx_size r + 4)) sk)) at 1. f_equal. rewrite skipn_skipn.
  replace (4 + idx_size r + 2 * n) with (n + (n + (idx_size r + 4))) by lia.
  rewrite <- (firstn_skipn n (skipn (n + (n + (idx_size r + 4))) sk)) at 1. f_equal. rewrite skipn_skipn.
  replace (4 + idx_size r + 3 * n) with (n + (n + (n + (idx_size r + 4)))) by lia.
  rewrite app_nil_r. symmetry. apply firstn_all2. rewrite skipn_length. lia.
Qed.
Lemma idx_lt : (idx < 256 ^ N.of_nat (idx_size r))%N.
Proof.
  destruct Hkey as [Hl [_ Hb]]. unfold sk_size in Hl. unfold sk_index.
  assert (Hil : length (firstn (idx_size r) (skipn 4 sk)) = idx_size r) by (rewrite firstn_length, skipn_length; lia).
  rewrite <- Hil at 2. apply os2ip_lt. now apply bytes_ok_firstn, bytes_ok_skipn.
Qed.

Lemma layout_sk i a b c d : sk_layout (toByte i (idx_size r)) a b c d [] = toByte i (idx_size r) ++ a ++ b ++ c ++ d.
Proof. unfold sk_layout. now rewrite app_nil_r. Qed.

Lemma sign_row sm smlen m : (idx + 1 < 2 ^ N.of_nat (r_h r))%N -> sig_size r + length m <= length sm ->
  sign mt ref_core sk sm smlen m =
  Ok (mkSign 0 (secret_key r (idx + 1) sks prfk rt seed)
        (mt_sign P sks prfk rt seed idx m ++ m ++ skipn (sig_size r + length m) sm) (sig_size r + length m)).
Proof.
  intros Hi Hm. rewrite sk_split at 1. rewrite sign_eq.
  pose proof (sign_spec p (row_hash r) p_ok p_hash sks prfk rt seed []) as H.
  rewrite row_n, p_ib, p_sig, p_h, sp_of_row in H. rewrite H by (try (apply sk_fields_length; lia); assumption).
  rewrite bind_ok. cbn [so_rc so_sk so_sm so_smlen]. unfold secret_key. now rewrite layout_sk.
Qed.

Lemma sign_last_row sm smlen m : (idx + 1 = 2 ^ N.of_nat (r_h r))%N -> sig_size r + length m <= length sm ->
  let z := repeat 0%N n in
  let R := PRF P z (toByte idx 32) in
  sign mt ref_core sk sm smlen m =
  Ok (mkSign 0 (secret_key r (2 ^ N.of_nat (r_h r)) z z z z)
        (repeat 255%N (idx_size r) ++ R ++
         concat (map (layer_sig P z z (H_msg P R z idx m) idx) (seq 0 (r_d r))) ++
         m ++ skipn (sig_size r + length m) sm) (sig_size r + length m)).
Proof.
  intros Hi Hm z R. rewrite sk_split at 1. rewrite sign_eq.
  pose proof (sign_last_spec p (row_hash r) p_ok p_hash sks prfk rt seed []) as H.
  assert (Hx : idx = (2 ^ N.of_nat (r_h r) - 1)%N) by lia.
  rewrite row_n, p_ib, p_sig, p_h, p_sk, row_dd, sp_of_row in H. unfold R, z. rewrite Hx. rewrite H.
  - rewrite bind_ok. cbn [so_rc so_sk so_sm so_smlen length repeat]. unfold secret_key. now rewrite layout_sk.
  - apply sk_fields_length; lia.
  - apply sk_fields_length; lia.
  - apply sk_fields_length; lia.
  - apply sk_fields_length; lia.
  - unfold sk_size. cbn [length]. lia.
  - exact Hm.
Qed.

Lemma sign_exhausted_row sm smlen m : (2 ^ N.of_nat (r_h r) <= idx)%N -> sig_size r + length m <= length sm ->
  let z := repeat 0%N n in
  sign mt ref_core sk sm smlen m =
  Ok (mkSign (-2) (toByte (r_oid r) 4 ++ repeat 255%N (idx_size r) ++ z ++ z ++ z ++ z)
        (firstn (sig_size r) sm ++ m ++ skipn (sig_size r + length m) sm) (sig_size r + length m)).
Proof.
  intros Hi Hm z. rewrite sk_split at 1. rewrite sign_eq.
  pose proof (sign_exhausted_spec p p_ok sks prfk rt seed []) as H.
  rewrite row_n, p_ib, p_sig, p_h, p_sk in H.
  destruct (H (sk_fields_length 0 ltac:(lia)) (sk_fields_length 1 ltac:(lia)) (sk_fields_length 2 ltac:(lia)) (sk_fields_length 3 ltac:(lia))
              idx sm m smlen) as [sm' [H1 H2]].
  - unfold sk_size. cbn [length]. lia.
  - split; [exact Hi|apply idx_lt].
  - exact Hm.
  - rewrite H1, bind_ok. cbn [so_rc so_sk so_sm so_smlen length repeat]. unfold sk_layout. rewrite app_nil_r.
    unfold wr in H2. destruct (Nat.leb_spec (sig_size r + length m) (length sm)); [|lia]. injection H2 as <-. reflexivity.
Qed.
End Sign.

(** ** Opening *)
Lemma open_row c skb mbuf mlen sm pk msg :
  parse_oid mt (c_sk_bytes c) uninit_params (r_oid r) = Ok (Some (row_params r skb)) -> (sk_ref r <= skb)%N ->
  key_of r (pk_size r) pk -> length sm = sig_size r + length msg -> msg = skipn (sig_size r) sm -> bytes_ok (firstn (idx_size r) sm) ->
  length sm <= length mbuf ->
  let rt := firstn n (skipn 4 pk) in
  let seed := skipn (4 + n) pk in
  exists m', sign_open mt c mbuf mlen sm pk =
    Ok (if mt_verify P rt seed (firstn (sig_size r) sm) msg
        then mkOpen 0 (msg ++ skipn (length msg) m') (length msg)
        else mkOpen (-1) (repeat 0%N (length msg) ++ skipn (length msg) m') 0) /\
    length m' = length mbuf /\ skipn (sig_size r) m' = msg ++ skipn (sig_size r + length msg) mbuf.
Proof.
  intros Hc Hs [Hl [Ho Hb]] Hsm Hmsg Hok Hm rt seed.
  assert (Hpk : pk = toByte (r_oid r) 4 ++ skipn 4 pk) by (rewrite <- Ho; symmetry; apply firstn_skipn).
  assert (Heq : sign_open mt c mbuf mlen sm pk = xmssmt_core_sign_open (row_params r skb) mbuf sm (skipn 4 pk)) by (rewrite Hpk at 1; now apply open_eq).
  rewrite Heq.
  pose proof (open_spec (row_params r skb) (row_hash r) (row_params_ok mt r skb Hr Hs) (row_hash_total mt r skb HE Hr) mbuf sm (skipn 4 pk) msg) as H.
  assert (Hsig : ModelParams.sig_bytes (row_params r skb) = sig_size r) by exact p_sig.
  assert (Hib : index_bytes (row_params r skb) = idx_size r) by exact p_ib.
  rewrite Hsig, Hib, row_n, sp_of_row in H. unfold pk_size in Hl.
  destruct H as [m' [H1 [H2 [H3 H4]]]]; try assumption.
  - rewrite skipn_length. lia.
  - exists m'. rewrite H1. rewrite skipn_skipn. replace (n + 4) with (4 + n) by lia.
    rewrite (firstn_all2 (skipn (4 + n) pk)) by (rewrite skipn_length; lia). auto.
Qed.
End Row.
