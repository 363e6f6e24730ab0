(** The fast core on keys with arbitrary contents: whatever the traversal state holds, a call
    that returns has used the stored index and advanced it. *)
From Verif Require Import Base Lib ModelUtils ModelParams ModelHash ModelWots ModelCommons ModelCore ModelCoreFast ModelXmss SpecRfc SpecParams SpecApi SpecComp
  SpecFast ProofUtils ProofHash ProofWots ProofCommons ProofCore ProofParams ProofApi ProofHistory ProofMain ProofFast1 ProofFast2 ProofFast3 ProofFast4 ProofFast5 ProofFast6 ProofFast7.

Lemma forN_pinv {S} (P : nat -> S -> Prop) k : forall i body s t,
  (forall j u u', i <= j < i + k -> P j u -> body j u = Ok u' -> P (Datatypes.S j) u') ->
  P i s -> forN k i body s = Ok t -> P (i + k) t.
Proof.
  induction k as [|k IH]; intros i body s t Hb Hs Hf.
  - rewrite Nat.add_0_r. cbn in Hf. congruence.
  - rewrite forN_S in Hf. apply bind_inv in Hf. destruct Hf as (u & Hu & Hf).
    replace (i + Datatypes.S k) with (Datatypes.S i + k) by lia. apply (IH (Datatypes.S i) body u t); [|apply (Hb i s u); [lia|exact Hs|exact Hu]|exact Hf].
    intros j v v' Hj. apply Hb. lia.
Qed.
Lemma wr_inv b o d b' : wr b o d = Ok b' -> o + length d <= length b /\ b' = firstn o b ++ d ++ skipn (o + length d) b.
Proof. unfold wr. destruct (Nat.leb_spec (o + length d) (length b)); intros Hx; [split; [assumption|congruence]|discriminate]. Qed.
Lemma wr_before b o d b' k : wr b o d = Ok b' -> k <= o -> firstn k b' = firstn k b.
Proof.
  intros Hw Hk. apply wr_inv in Hw. destruct Hw as [Hl ->].
  rewrite firstn_app, firstn_firstn, Nat.min_l by lia. rewrite firstn_length, Nat.min_l by lia.
  replace (k - o) with 0 by lia. cbn [firstn]. apply app_nil_r.
Qed.
Lemma wr_at b o d b' : wr b o d = Ok b' -> firstn (length d) (skipn o b') = d.
Proof.
  intros Hw. apply wr_inv in Hw. destruct Hw as [Hl ->]. rewrite skipn_app_len by (rewrite firstn_length; lia). now apply firstn_app_len.
Qed.
Lemma wr_after b o d b' k l : wr b o d = Ok b' -> o + length d <= k -> firstn l (skipn k b') = firstn l (skipn k b).
Proof.
  intros Hw Hk. apply wr_inv in Hw. destruct Hw as [Hl ->]. f_equal. rewrite app_assoc, skipn_app, skipn_all2 by (rewrite app_length, firstn_length; lia).
  rewrite app_length, firstn_length, Nat.min_l by lia. cbn [app]. rewrite skipn_skipn. f_equal. lia.
Qed.

Lemma wr_slice b o d b' j k : wr b o d = Ok b' -> j + k <= o -> firstn k (skipn j b') = firstn k (skipn j b).
Proof.
  intros Hw Hk. rewrite !firstn_skipn_comm. f_equal. exact (wr_before b o d b' (j + k) Hw Hk).
Qed.
Ltac inv1 H := let x := fresh "v" in let E := fresh "E" in apply bind_inv in H; destruct H as (x & E & H).

Section Core.
Context {E : Env}.
Variable p : xmss_params.
Hypothesis Hp : params_ok p.
Notation n := (p_n p).
Notation ib := (index_bytes p).

(** what a call that signs with index [idx] has done, given the fixed part of the key it worked with *)
Definition stepped (idx : N) (sk0 sk sm m : bytes) (o : sign_out) : Prop :=
  so_rc o = 0%Z /\ length (so_sk o) = length sk /\ firstn ib (so_sk o) = toByte (idx + 1) ib /\
  firstn (4 * n) (skipn ib (so_sk o)) = firstn (4 * n) (skipn ib sk0) /\
  length (so_sm o) = length sm /\ firstn ib (so_sm o) = toByte idx ib /\
  so_smlen o = sig_bytes p + length m /\ firstn (length m) (skipn (sig_bytes p) (so_sm o)) = m.

Lemma hash_message_len R rt i b off l h b' : hash_message p R rt i b off l = Ok (h, b') -> length b' = length b.
Proof.
  unfold hash_message. intros H0. do 8 inv1 H0. injection H0 as <- <-.
  repeat match goal with Hw : wr _ _ _ = Ok _ |- _ => apply wr_length in Hw end. congruence.
Qed.

Lemma body_stepped idx sk ss ws sm m o : p_d p = 1 -> ib = 4 -> (idx < 2 ^ 60)%N ->
  fast_sign_body p idx sk ss ws sm m = Ok o -> stepped idx sk sk sm m o.
Proof.
  intros Hd Hib Hidx H0. unfold fast_sign_body in H0. cbv zeta in H0.
  inv1 H0. inv1 H0. inv1 H0. inv1 H0. apply bind_inv in H0. destruct H0 as (sk1 & Wsk & H0). inv1 H0.
  apply bind_inv in H0. destruct H0 as (sm1 & W1 & H0). inv1 H0.
  destruct (sig_bytes p <? padding_len p + 3 * n); [discriminate|].
  apply bind_inv in H0. destruct H0 as ((mh & sm2) & W2 & H0).
  apply bind_inv in H0. destruct H0 as (sm3 & W3 & H0). apply bind_inv in H0. destruct H0 as (sm4 & W4 & H0).
  apply bind_inv in H0. destruct H0 as ((sg & oa) & Wg & H0). apply bind_inv in H0. destruct H0 as (sm5 & W5 & H0).
  inv1 H0. apply bind_inv in H0. destruct H0 as (sm6 & W6 & H0). inv1 H0. inv1 H0.
  apply bind_inv in H0. destruct H0 as (sm7 & W7 & H0). inv1 H0. apply bind_inv in H0. destruct H0 as (sk2 & Wser & H0).
  unfold xmssmt_serialize_state in Wser.
  assert (Eo : 4 + n + wots_sig_bytes p + tree_height p * n = sig_bytes p).
  { rewrite (po_sig p Hp), (po_h p Hp), Hd, Hib. lia. }
  injection H0 as <-. unfold stepped. cbn [so_rc so_sk so_sm so_smlen].
  assert (Lt : length (ull_to_bytes 4 (idx + 1)) = ib) by (rewrite ull_to_bytes_spec, toByte_length; lia).
  assert (Lt' : length (ull_to_bytes 4 idx) = ib) by (rewrite ull_to_bytes_spec, toByte_length; lia).
  split; [reflexivity|]. split; [rewrite (wr_length _ _ _ _ Wser), (wr_length _ _ _ _ Wsk); reflexivity|].
  split; [rewrite (wr_before _ _ _ _ ib Wser) by lia; pose proof (wr_at _ _ _ _ Wsk) as Ha; cbn [skipn] in Ha; rewrite Lt in Ha; rewrite Ha, ull_to_bytes_spec, Hib; reflexivity|].
  split; [rewrite (wr_slice _ _ _ _ ib (4 * n) Wser) by lia; apply (wr_after _ _ _ _ ib _ Wsk); lia|].
  split; [rewrite (wr_length _ _ _ _ W7), (wr_length _ _ _ _ W6), (wr_length _ _ _ _ W5), (wr_length _ _ _ _ W4), (wr_length _ _ _ _ W3), (hash_message_len _ _ _ _ _ _ _ _ W2), (wr_length _ _ _ _ W1); reflexivity|].
  split.
  - rewrite (wr_before _ _ _ _ ib W7), (wr_before _ _ _ _ ib W6), (wr_before _ _ _ _ ib W5), (wr_before _ _ _ _ ib W4) by lia.
    pose proof (wr_at _ _ _ _ W3) as Ha; cbn [skipn] in Ha; rewrite Lt' in Ha; rewrite Ha, ull_to_bytes_spec, Hib; reflexivity.
  - split; [lia|]. rewrite <- Eo. apply (wr_at _ _ _ _ W7).
Qed.

Lemma mt_body_stepped idx sk ss ws sm m o : (idx < 2 ^ 60)%N ->
  fast_mt_sign_body p idx sk ss ws sm m = Ok o -> stepped idx sk sk sm m o.
Proof.
  intros Hidx H0. unfold fast_mt_sign_body in H0. cbv zeta in H0.
  inv1 H0. inv1 H0. inv1 H0. apply bind_inv in H0. destruct H0 as (sk1 & Wsk & H0). inv1 H0.
  apply bind_inv in H0. destruct H0 as (sm1 & W1 & H0). inv1 H0.
  destruct (sig_bytes p <? padding_len p + 3 * n); [discriminate|].
  apply bind_inv in H0. destruct H0 as ((mh & sm2) & W2 & H0).
  apply bind_inv in H0. destruct H0 as (sm3 & W3 & H0). apply bind_inv in H0. destruct H0 as (sm4 & W4 & H0). inv1 H0. inv1 H0.
  apply bind_inv in H0. destruct H0 as ((sg & oa) & Wg & H0). apply bind_inv in H0. destruct H0 as (sm5 & W5 & H0).
  inv1 H0. inv1 H0. apply bind_inv in H0. destruct H0 as (sm6 & W6 & H0). apply bind_inv in H0. destruct H0 as ((sm7 & off) & Wl & H0).
  inv1 H0. inv1 H0. inv1 H0.
  apply bind_inv in H0. destruct H0 as (sm8 & W8 & H0). apply bind_inv in H0. destruct H0 as (sk2 & Wser & H0).
  unfold xmssmt_serialize_state in Wser.
  assert (HL : length sm7 = length sm6 /\ firstn ib sm7 = firstn ib sm6 /\ off = sig_bytes p).
  { apply (forN_pinv (fun j '(s, q) => length s = length sm6 /\ firstn ib s = firstn ib sm6 /\ q = ib + n + j * (wots_sig_bytes p + tree_height p * n))) in Wl.
    - destruct Wl as (R1 & R2 & R3). split; [exact R1|]. split; [exact R2|]. rewrite R3, (po_sig p Hp), (po_h p Hp). pose proof (po_d p Hp) as Hd.
      replace (1 + (p_d p - 1)) with (p_d p) by lia. lia.
    - intros j (s & q) (s' & q') Hj (R1 & R2 & R3) Hb. do 1 inv1 Hb. apply bind_inv in Hb. destruct Hb as (t1 & T1 & Hb). inv1 Hb. inv1 Hb.
      apply bind_inv in Hb. destruct Hb as (t2 & T2 & Hb). injection Hb as <- <-.
      split; [rewrite (wr_length _ _ _ _ T2), (wr_length _ _ _ _ T1); exact R1|].
      split; [rewrite (wr_before _ _ _ _ ib T2), (wr_before _ _ _ _ ib T1) by lia; exact R2|]. rewrite R3. lia.
    - split; [reflexivity|]. split; [reflexivity|]. lia. }
  destruct HL as (L7 & F7 & Eo).
  injection H0 as <-. unfold stepped. cbn [so_rc so_sk so_sm so_smlen].
  assert (U : u64 (idx + 1) = (idx + 1)%N). { unfold u64. apply N.mod_small. change (2 ^ 60)%N with 1152921504606846976%N in Hidx. change (2 ^ 64)%N with 18446744073709551616%N. lia. }
  rewrite U in Wsk.
  assert (Lt : forall x, length (ull_to_bytes ib x) = ib) by (intros; rewrite ull_to_bytes_spec, toByte_length; lia).
  pose proof (Lt (idx + 1)%N) as Lt1. pose proof (Lt idx) as Lt2.
  split; [reflexivity|]. split; [rewrite (wr_length _ _ _ _ Wser), (wr_length _ _ _ _ Wsk); reflexivity|].
  split; [rewrite (wr_before _ _ _ _ ib Wser) by lia; pose proof (wr_at _ _ _ _ Wsk) as Ha; cbn [skipn] in Ha; rewrite Lt1 in Ha; rewrite Ha, ull_to_bytes_spec; reflexivity|].
  split; [rewrite (wr_slice _ _ _ _ ib (4 * n) Wser) by lia; apply (wr_after _ _ _ _ ib _ Wsk); lia|].
  split; [rewrite (wr_length _ _ _ _ W8), L7, (wr_length _ _ _ _ W6), (wr_length _ _ _ _ W5), (wr_length _ _ _ _ W4), (wr_length _ _ _ _ W3), (hash_message_len _ _ _ _ _ _ _ _ W2), (wr_length _ _ _ _ W1); reflexivity|].
  split.
  - rewrite (wr_before _ _ _ _ ib W8) by (rewrite Eo, (po_sig p Hp); lia). rewrite F7, (wr_before _ _ _ _ ib W6), (wr_before _ _ _ _ ib W5), (wr_before _ _ _ _ ib W4) by lia.
    pose proof (wr_at _ _ _ _ W3) as Ha; cbn [skipn] in Ha; rewrite Lt2 in Ha; rewrite Ha, ull_to_bytes_spec; reflexivity.
  - split; [lia|]. rewrite <- Eo. apply (wr_at _ _ _ _ W8).
Qed.

Definition zeroed (sk : bytes) : bytes := repeat 255%N ib ++ repeat 0%N (ModelParams.sk_bytes p - ib).
Definition refused (sk sm : bytes) (smlen : nat) (o : sign_out) : Prop :=
  so_rc o = (-2)%Z /\ length (so_sk o) = length sk /\ firstn ib (so_sk o) = repeat 255%N ib /\ so_sm o = sm /\ so_smlen o = smlen.

Lemma core_any (mt : bool) sk sm smlen m o : (mt = false -> p_d p = 1 /\ ib = 4) -> full_height p <= 60 -> bytes_ok (firstn ib sk) -> length sk = ModelParams.sk_bytes p ->
  (if mt then fast_xmssmt_core_sign else fast_xmss_core_sign) p sk sm smlen m = Ok o ->
  let idx := os2ip (firstn ib sk) in let top := (2 ^ N.of_nat (full_height p))%N in
  (top <= idx)%N /\ refused sk sm smlen o \/
  (idx + 1 = top)%N /\ stepped idx (zeroed sk) sk sm m o \/
  (idx + 1 < top)%N /\ stepped idx sk sk sm m o.
Proof.
  intros Hmt Hh Hb Hlen H0 idx top. pose proof (po_sk p Hp) as Hsk. pose proof (po_ib_le p Hp) as [Hi8 _].
  assert (Ht : (1 <= top /\ top <= 2 ^ 60)%N).
  { split; [apply N.lt_pred_le; pose proof (N.pow_nonzero 2 (N.of_nat (full_height p))); unfold top; lia|apply N.pow_le_mono_r; lia]. }
  assert (H1 : exists ss ws, (if (top - 1 <=? idx)%N then
      let* sk := wr sk 0 (repeat 255%N ib) in
      let* sk := wr sk ib (repeat 0%N (ModelParams.sk_bytes p - ib)) in
      if (top - 1 <? idx)%N then Ok (mkSign (-2) sk sm smlen)
      else if (full_height p =? 64) && (idx =? top - 1)%N then Ok (mkSign (-2) sk sm smlen)
      else let* (zs, ws) := xmssmt_deserialize_state p sk in
        (if mt then fast_mt_sign_body else fast_sign_body) p idx sk (reload_all zs ss) ws sm m
    else (if mt then fast_mt_sign_body else fast_sign_body) p idx sk ss ws sm m) = Ok o).
  { assert (Hx : rd sk 0 ib = Ok (firstn ib sk)) by (rewrite rd_ok by lia; reflexivity).
    assert (Hu : bytes_to_ull (firstn ib sk) = Ok idx) by (apply bytes_to_ull_spec; [rewrite firstn_length; lia|exact Hb]).
    assert (Hs : shl1_ull (full_height p) = Ok top) by (unfold shl1_ull; destruct (Nat.ltb_spec (full_height p) 64); [reflexivity|lia]).
    destruct mt.
    - unfold fast_xmssmt_core_sign in H0. cbv zeta in H0. apply bind_inv in H0. destruct H0 as ((ss & ws) & _ & H0).
      rewrite Hx, bind_ok, Hu, bind_ok, Hs, bind_ok in H0. exists ss, ws. exact H0.
    - destruct (Hmt eq_refl) as [_ H4]. unfold fast_xmss_core_sign in H0. cbv zeta in H0. apply bind_inv in H0. destruct H0 as ((ss & ws) & _ & H0).
      rewrite <- H4 in H0 at 1. rewrite Hx, bind_ok, Hu, bind_ok, Hs, bind_ok in H0. exists ss, ws. exact H0. }
  clear H0. destruct H1 as (ss & ws & H0).
  assert (HB : forall sk' ss ws, (idx < 2 ^ 60)%N -> (if mt then fast_mt_sign_body else fast_sign_body) p idx sk' ss ws sm m = Ok o -> stepped idx sk' sk' sm m o).
  { intros sk' ss' ws' Hi Hy. destruct mt; [now apply mt_body_stepped in Hy|]. destruct (Hmt eq_refl). now apply body_stepped in Hy. }
  destruct (N.leb_spec (top - 1) idx) as [Hge|Hlt].
  - apply bind_inv in H0. destruct H0 as (s1 & S1 & H0). apply bind_inv in H0. destruct H0 as (s2 & S2 & H0).
    assert (L2 : length s2 = length sk) by (rewrite (wr_length _ _ _ _ S2), (wr_length _ _ _ _ S1); reflexivity).
    assert (E2 : s2 = zeroed sk).
    { pose proof (wr_inv _ _ _ _ S1) as [A1 B1]. pose proof (wr_inv _ _ _ _ S2) as [A2 B2]. rewrite !repeat_length in *. cbn [firstn app Nat.add] in B1.
      rewrite B2. rewrite (skipn_all2 s1) by (rewrite (wr_length _ _ _ _ S1); lia). rewrite app_nil_r. unfold zeroed. f_equal.
      rewrite B1. apply firstn_app_len. now rewrite repeat_length. }
    destruct (N.ltb_spec (top - 1) idx) as [Hgt|Hle].
    + left. split; [lia|]. injection H0 as <-. split; [reflexivity|]. cbn [so_sk so_sm so_smlen]. split; [exact L2|]. split; [|split; reflexivity].
      rewrite E2. unfold zeroed. apply firstn_app_len. now rewrite repeat_length.
    + right. left. assert (Hie : (idx + 1 = top)%N) by lia. split; [exact Hie|].
      destruct (Nat.eqb_spec (full_height p) 64) as [H64|_]; [lia|]. cbn [andb] in H0. apply bind_inv in H0. destruct H0 as ((zs & ws') & _ & H0).
      apply HB in H0; [|lia]. rewrite E2 in H0. unfold stepped in *. rewrite <- E2 in H0 at 1. rewrite L2 in H0. exact H0.
  - right. right. split; [lia|]. apply HB in H0; [exact H0|lia].
Qed.
End Core.

Lemma zeros_slice (a b c : nat) : a + b <= c -> firstn b (skipn a (repeat 0%N c)) = repeat 0%N b.
Proof.
  intros Hx. replace c with (a + (b + (c - a - b))) by lia. rewrite !repeat_app. rewrite skipn_app_len by (now rewrite repeat_length).
  apply firstn_app_len. now rewrite repeat_length.
Qed.
Lemma slice_slice {A} k j m (l : list A) : j + k <= m -> firstn k (skipn j (firstn m l)) = firstn k (skipn j l).
Proof. intros Hx. rewrite !firstn_skipn_comm, firstn_firstn, Nat.min_l by lia. reflexivity. Qed.
Section Any.
Context {E : Env}.
Variables (mt : bool) (r : row).
Hypothesis Hr : In r (rows mt).
Notation p := (row_params r (sk_fast r)).
Notation ib := (idx_size r).
Notation top := (2 ^ N.of_nat (r_h r))%N.

(** all that is needed of a key: its length, its OID and that the stored index consists of bytes *)
Definition keyish (sk : bytes) : Prop :=
  length sk = 4 + fast_size r /\ firstn 4 sk = toByte (r_oid r) 4 /\ bytes_ok (firstn ib (skipn 4 sk)).
Lemma key_keyish sk : key_of r (fast_size r) sk -> keyish sk.
Proof. intros (K1 & K2 & K3). split; [exact K1|]. split; [exact K2|]. rewrite <- (firstn_skipn 4 sk), bytes_ok_app in K3. destruct K3 as [_ K3]. rewrite <- (firstn_skipn ib (skipn 4 sk)), bytes_ok_app in K3. tauto.
Qed.

Lemma mk_keyish sk : length sk = 4 + fast_size r -> firstn 4 sk = toByte (r_oid r) 4 -> bytes_ok (firstn (4 + ib) sk) -> keyish sk.
Proof.
  intros K1 K2 K3. split; [exact K1|]. split; [exact K2|]. rewrite firstn_skipn_comm. now apply bytes_ok_skipn.
Qed.

Lemma fsk_good i a b c d ext : fields r a b c d -> ser_image p ext ->
  let sk := secret_key r i a b c d ++ ext in length sk = 4 + fast_size r /\ firstn 4 sk = toByte (r_oid r) 4 /\ bytes_ok (firstn (4 + ib) sk).
Proof.
  intros ((La & Lb & Lc & Ld) & _) Hx sk. apply (ser_len mt r Hr) in Hx. unfold sk, secret_key.
  split; [rewrite !app_length, !toByte_length, (fast_size_eq mt r Hr), Hx; lia|].
  rewrite <- !app_assoc. split; [apply firstn_app_len; now rewrite toByte_length|].
  rewrite app_assoc, firstn_app_len by (rewrite app_length, !toByte_length; lia). apply Forall_app. split; apply toByte_ok.
Qed.

Definition signed_with (i : N) (x : call) (o : sign_out) : Prop :=
  so_rc o = 0%Z /\ so_smlen o = sig_size r + length (c_m x) /\ length (so_sm o) = length (c_sm x) /\
  sm_index r (so_sm o) = i /\ skipn (sig_size r) (signed_message o) = c_m x.
Definition denied (x : call) (o : sign_out) : Prop := so_rc o = (-2)%Z /\ so_sm o = c_sm x /\ so_smlen o = c_smlen x.
Definition same_fields (sk sk' : bytes) : Prop := forall j, j < 4 -> sk_field r j sk' = sk_field r j sk.

Lemma top_ib : (top <= 256 ^ N.of_nat ib)%N.
Proof. pose proof (idx_size_le mt r Hr) as [_ Hh]. rewrite pow256_pow2. apply N.pow_le_mono_r; [discriminate|lia]. Qed.

Lemma any_step sk x o : keyish sk -> sign mt fast_core sk (c_sm x) (c_smlen x) (c_m x) = Ok o ->
  keyish (so_sk o) /\
  ((top <= sk_index r sk)%N /\ denied x o /\ sk_index r (so_sk o) = (256 ^ N.of_nat ib - 1)%N \/
   (sk_index r sk < top)%N /\ signed_with (sk_index r sk) x o /\ sk_index r (so_sk o) = ((sk_index r sk + 1) mod 256 ^ N.of_nat ib)%N /\
   ((sk_index r sk + 1 < top)%N -> same_fields sk (so_sk o)) /\
   ((sk_index r sk + 1 = top)%N -> forall j, j < 4 -> sk_field r j (so_sk o) = repeat 0%N (r_n r))).
Proof.
  intros (K1 & K2 & K3) H0. set (y := skipn 4 sk) in *.
  assert (Esk : sk = toByte (r_oid r) 4 ++ y) by (rewrite <- K2; symmetry; apply firstn_skipn).
  rewrite Esk, (fsign_eq mt r Hr) in H0. apply bind_inv in H0. destruct H0 as (o1 & H0 & H1). assert (Eo : o = mkSign (so_rc o1) (toByte (r_oid r) 4 ++ so_sk o1) (so_sm o1) (so_smlen o1)) by congruence. clear H1. subst o. cbn [so_sk so_sm so_smlen so_rc].
  pose proof (fp_ok mt r Hr) as Hp. pose proof (fp_ib r) as Eib. pose proof (fp_h r) as Eh. pose proof (fp_sig r) as Esig. pose proof (row_n r (sk_fast r)) as En.
  assert (Ly : length y = ModelParams.sk_bytes p). { rewrite (fp_sk mt r Hr). unfold y. rewrite skipn_length, K1, (fast_size_eq mt r Hr). lia. }
  assert (Hbig : ib + 4 * r_n r <= length y) by (rewrite Ly, (fp_sk mt r Hr); lia).
  assert (Hmt : mt = false -> p_d p = 1 /\ index_bytes p = 4).
  { intros ->. rewrite Eib. assert (Ha : forallb (fun q => Nat.eqb (r_d q) 1 && Nat.eqb (sp_ib (row_sp q)) 4) (rows false) = true) by (vm_compute; reflexivity).
    pose proof (proj1 (forallb_forall _ _) Ha r Hr) as Hx. apply andb_true_iff in Hx. destruct Hx as [X1 X2]. apply Nat.eqb_eq in X1, X2.
    split; [rewrite <- X1; apply Nat2N.id|exact X2]. }
  assert (Hh60 : full_height p <= 60).
  { rewrite Eh. assert (Ha : forallb (fun q => Nat.leb (r_h q) 60) (rows true ++ rows false) = true) by (vm_compute; reflexivity).
    apply Nat.leb_le. apply (proj1 (forallb_forall _ _) Ha r). apply in_app_iff. destruct mt; tauto. }
  assert (K3' : bytes_ok (firstn (index_bytes p) y)) by (rewrite Eib; exact K3).
  pose proof (core_any p Hp mt y (c_sm x) (c_smlen x) (c_m x) o1 Hmt Hh60 K3' Ly H0) as HC. cbv zeta in HC. rewrite Eh, Eib in HC.
  assert (Ei : os2ip (firstn ib y) = sk_index r sk) by reflexivity. rewrite Ei in HC.
  assert (Ekey : forall z, length (so_sk o1) = length y -> firstn ib (so_sk o1) = z -> bytes_ok z -> keyish (toByte (r_oid r) 4 ++ so_sk o1)).
  { intros z Z1 Z2 Z3. split; [rewrite app_length, toByte_length, Z1; unfold y; rewrite skipn_length; lia|].
    split; [apply firstn_app_len; now rewrite toByte_length|]. rewrite skipn_app_len by (now rewrite toByte_length). rewrite Z2. exact Z3. }
  assert (Eidx : sk_index r (toByte (r_oid r) 4 ++ so_sk o1) = os2ip (firstn ib (so_sk o1))).
  { unfold sk_index. rewrite skipn_app_len by (now rewrite toByte_length). reflexivity. }
  assert (Efld : forall j z, j < 4 -> ib + 4 * r_n r <= length z -> firstn (4 * r_n r) (skipn ib (so_sk o1)) = firstn (4 * r_n r) (skipn ib z) -> sk_field r j (toByte (r_oid r) 4 ++ so_sk o1) = firstn (r_n r) (skipn (ib + j * r_n r) z)).
  { intros j z Hj Lz Hz. unfold sk_field. replace (4 + ib + j * r_n r) with (ib + j * r_n r + 4) by lia. rewrite <- skipn_skipn. rewrite skipn_app_len by (now rewrite toByte_length).
    replace (ib + j * r_n r) with (j * r_n r + ib) by lia. rewrite <- !skipn_skipn.
    apply (f_equal (fun l => firstn (r_n r) (skipn (j * r_n r) l))) in Hz. 
    rewrite !(slice_slice (A := N)) in Hz by nia. exact Hz. }
  assert (Hsg : stepped p (sk_index r sk) y y (c_sm x) (c_m x) o1 \/ stepped p (sk_index r sk) (zeroed p y) y (c_sm x) (c_m x) o1 ->
    keyish (toByte (r_oid r) 4 ++ so_sk o1) /\ signed_with (sk_index r sk) x (mkSign (so_rc o1) (toByte (r_oid r) 4 ++ so_sk o1) (so_sm o1) (so_smlen o1)) \/ ~ (sk_index r sk < 256 ^ N.of_nat ib)%N).
  { intros Hs. destruct (N.lt_ge_cases (sk_index r sk) (256 ^ N.of_nat ib)) as [Hlt|Hge]; [left|right; lia].
    assert (Hs' : exists z, stepped p (sk_index r sk) z y (c_sm x) (c_m x) o1) by (destruct Hs; eauto). clear Hs. destruct Hs' as (z & S1 & S2 & S3 & S4 & S5 & S6 & S7 & S8).
    rewrite Eib in S3, S6. rewrite Esig in S7, S8.
    split; [apply (Ekey _ S2 S3); apply toByte_ok|]. unfold signed_with, signed_message. cbn [so_rc so_smlen so_sm].
    split; [exact S1|]. split; [exact S7|]. split; [exact S5|]. split; [unfold sm_index; rewrite S6, os2ip_toByte; apply N.mod_small; exact Hlt|].
    rewrite S7. rewrite <- S8 at 2. rewrite firstn_skipn_comm. reflexivity. }
  assert (Hlt : (sk_index r sk < 256 ^ N.of_nat ib)%N).
  { unfold sk_index. fold y. rewrite <- (firstn_length_le y (n := ib)) at 2 by lia. apply os2ip_lt. exact K3. }
  destruct HC as [(C1 & S1 & S2 & S3 & S4 & S5)|[(C1 & S)|(C1 & S)]].
  - rewrite Eib in S3. split; [apply (Ekey _ S2 S3); apply Forall_forall; intros q Hq; apply repeat_spec in Hq; subst q; reflexivity|]. left. split; [exact C1|].
    split; [split; [exact S1|split; assumption]|]. rewrite Eidx, S3. rewrite <- top_repeat. rewrite os2ip_toByte. apply N.mod_small. pose proof (N.pow_nonzero 256 (N.of_nat ib)). lia.
  - destruct (Hsg (or_intror S)) as [[G1 G2]|G]; [|tauto]. split; [exact G1|]. right. split; [lia|]. split; [exact G2|].
    destruct S as (S1 & S2 & S3 & S4 & _). rewrite Eib in S3, S4. rewrite En in S4. split; [rewrite Eidx, S3; apply os2ip_toByte|]. split; [intros; lia|].
    intros _ j Hj. assert (Lz : length (zeroed p y) = length y) by (unfold zeroed; rewrite app_length, !repeat_length, Ly, (fp_sk mt r Hr), Eib; lia).
    rewrite (Efld j (zeroed p y) Hj ltac:(lia) S4). unfold zeroed. rewrite Eib.
    rewrite skipn_app, skipn_all2 by (rewrite repeat_length; lia). rewrite repeat_length. cbn [app]. replace (ib + j * r_n r - ib) with (j * r_n r) by lia.
    apply zeros_slice. rewrite <- Ly. nia.
  - destruct (Hsg (or_introl S)) as [[G1 G2]|G]; [|tauto]. split; [exact G1|]. right. split; [lia|]. split; [exact G2|].
    destruct S as (S1 & S2 & S3 & S4 & _). rewrite Eib in S3, S4. rewrite En in S4. split; [rewrite Eidx, S3; apply os2ip_toByte|]. split; [|intros; lia].
    intros _ j Hj. rewrite (Efld j y Hj ltac:(lia) S4). unfold sk_field. replace (4 + ib + j * r_n r) with (ib + j * r_n r + 4) by lia. unfold y. now rewrite skipn_skipn.
Qed.

(** histories *)
Lemma any_run_h : r_h r < 8 * ib -> forall cs sk sk' os, keyish sk -> sign_run mt fast_core sk cs = Ok (sk', os) ->
  keyish sk' /\ length os = length cs /\
  forall k x o, nth_error cs k = Some x -> nth_error os k = Some o ->
    ((sk_index r sk + N.of_nat k < top)%N -> signed_with (sk_index r sk + N.of_nat k) x o /\ sk_index r (so_sk o) = (sk_index r sk + N.of_nat k + 1)%N) /\
    ((top <= sk_index r sk + N.of_nat k)%N -> denied x o /\ (top <= sk_index r (so_sk o))%N).
Proof.
  intros Hh. assert (Ht : (2 * top <= 256 ^ N.of_nat ib)%N).
  { rewrite pow256_pow2, <- N.pow_succ_r'. apply N.pow_le_mono_r; [discriminate|lia]. }
  assert (Ht0 : (0 < top)%N) by (pose proof (N.pow_nonzero 2 (N.of_nat (r_h r))); lia).
  induction cs as [|x cs IH]; intros sk sk' os Hk H0; cbn [sign_run] in H0.
  - injection H0 as <- <-. split; [exact Hk|]. split; [reflexivity|]. intros k q o Hq. destruct k; discriminate.
  - apply bind_inv in H0. destruct H0 as (o & H0 & H1). apply bind_inv in H1. destruct H1 as ((sk1 & os1) & H1 & H2). injection H2 as <- <-.
    destruct (any_step sk x o Hk H0) as (Hk' & HS). destruct (IH (so_sk o) sk1 os1 Hk' H1) as (I1 & I2 & I3).
    split; [exact I1|]. split; [cbn [length]; now rewrite I2|]. intros k q oo Hq Ho.
    destruct k as [|k]; cbn [nth_error] in Hq, Ho.
    + injection Hq as <-. injection Ho as <-. change (N.of_nat 0) with 0%N. rewrite !N.add_0_r.
      destruct HS as [(A1 & A2 & A3)|(A1 & A2 & A3 & _)]; split; intros HH; try lia.
      * split; [exact A2|]. rewrite A3. lia.
      * split; [exact A2|]. rewrite A3. apply N.mod_small. lia.
    + destruct (I3 k q oo Hq Ho) as (J1 & J2). rewrite Nat2N.inj_succ.
      destruct HS as [(A1 & A2 & A3)|(A1 & A2 & A3 & _)].
      * split; [intros; lia|]. intros _. apply J2. rewrite A3. lia.
      * rewrite N.mod_small in A3 by lia. rewrite A3 in J1, J2. split; intros HH.
        -- destruct J1 as [J1 J1']; [lia|]. replace (sk_index r sk + N.succ (N.of_nat k))%N with (sk_index r sk + 1 + N.of_nat k)%N by lia. auto.
        -- apply J2. lia.
Qed.
Lemma any_run_40 : r_h r = 8 * ib -> forall cs sk sk' os, keyish sk -> sign_run mt fast_core sk cs = Ok (sk', os) ->
  keyish sk' /\ length os = length cs /\
  forall k x o, nth_error cs k = Some x -> nth_error os k = Some o ->
    signed_with ((sk_index r sk + N.of_nat k) mod top) x o /\ sk_index r (so_sk o) = ((sk_index r sk + N.of_nat k + 1) mod top)%N.
Proof.
  intros Hh. assert (Ht : (256 ^ N.of_nat ib = top)%N) by (rewrite pow256_pow2; f_equal; lia).
  assert (Ht0 : (0 < top)%N) by (pose proof (N.pow_nonzero 2 (N.of_nat (r_h r))); lia).
  induction cs as [|x cs IH]; intros sk sk' os Hk H0; cbn [sign_run] in H0.
  - injection H0 as <- <-. split; [exact Hk|]. split; [reflexivity|]. intros k q o Hq. destruct k; discriminate.
  - apply bind_inv in H0. destruct H0 as (o & H0 & H1). apply bind_inv in H1. destruct H1 as ((sk1 & os1) & H1 & H2). injection H2 as <- <-.
    assert (Hlt : (sk_index r sk < top)%N).
    { destruct Hk as (K1 & K2 & K3). unfold sk_index. rewrite <- Ht. 
      assert (Lx : length (firstn ib (skipn 4 sk)) = ib) by (rewrite firstn_length, skipn_length, K1, (fast_size_eq mt r Hr); lia).
      rewrite <- Lx at 2. apply os2ip_lt. exact K3. }
    destruct (any_step sk x o Hk H0) as (Hk' & [(A1 & _)|(A1 & A2 & A3 & _)]); [lia|]. rewrite Ht in A3. destruct (IH (so_sk o) sk1 os1 Hk' H1) as (I1 & I2 & I3).
    split; [exact I1|]. split; [cbn [length]; now rewrite I2|]. intros k q oo Hq Ho.
    destruct k as [|k]; cbn [nth_error] in Hq, Ho.
    + injection Hq as <-. injection Ho as <-. change (N.of_nat 0) with 0%N. rewrite !N.add_0_r. rewrite (N.mod_small (sk_index r sk)) by exact Hlt. auto.
    + destruct (I3 k q oo Hq Ho) as (J1 & J2). rewrite Nat2N.inj_succ. rewrite A3 in J1, J2.
      rewrite N.add_mod_idemp_l in J1 by lia. rewrite <- N.add_assoc, N.add_mod_idemp_l in J2 by lia.
      replace (sk_index r sk + N.succ (N.of_nat k))%N with (sk_index r sk + 1 + N.of_nat k)%N by lia. split; [exact J1|]. rewrite J2. f_equal. lia.
Qed.
End Any.
