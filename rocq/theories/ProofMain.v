(** The property lemmas about the public API (reference core; verification: both cores). *)
From Coq Require Import String.
From Verif Require Import Base Lib ModelUtils ModelParams ModelHash ModelWots ModelCommons ModelCore ModelCoreFast ModelXmss
  SpecRfc SpecParams SpecApi ProofUtils ProofHash ProofWots ProofCommons ProofTree ProofCore ProofParams ProofApi ProofHistory ProofToy.

(** ** Key generation *)
Section Gen.
Context {E : Env}.
Hypothesis HE : env_ok E.

Lemma keypair_rfc mt r pk sk rnd : In r (rows mt) -> 4 + pk_size r <= length pk -> 4 + sk_size r <= length sk ->
  let n := r_n r in
  let sk_seed := map rnd (seq 0 n) in
  let sk_prf := map rnd (seq n n) in
  let pub_seed := map rnd (seq (2 * n) n) in
  let root := mt_root (row_sp r) sk_seed pub_seed in
  keypair mt ref_core pk sk (r_oid r) rnd =
  Ok (0%Z, public_key r root pub_seed ++ skipn (4 + pk_size r) pk,
           secret_key r 0 sk_seed sk_prf root pub_seed ++ skipn (4 + sk_size r) sk).
Proof. intros Hr Hpk Hsk. exact (keypair_row HE mt r Hr pk sk rnd Hpk Hsk). Qed.

(** what a caller gets with exactly sized buffers and a byte source *)
Lemma rand_bytes rnd (Hb : forall i, (rnd i < 256)%N) a k : bytes_ok (map rnd (seq a k)).
Proof. apply Forall_forall. intros x Hx. apply in_map_iff in Hx. destruct Hx as [i [<- _]]. apply Hb. Qed.
Lemma root_facts mt r sks seed : In r (rows mt) -> length (mt_root (row_sp r) sks seed) = r_n r /\ bytes_ok (mt_root (row_sp r) sks seed).
Proof.
  intros Hr. pose proof (p_ok mt r Hr) as Hp. pose proof (p_hash HE mt r Hr) as HH.
  unfold mt_root, root. rewrite <- (sp_of_row r (sk_ref r)). split.
  - rewrite (node_length _ _ Hp HH). apply row_n.
  - apply (node_bytes _ _ HH).
Qed.
Definition key_material (r : row) (rnd : nat -> N) : bytes * bytes * bytes * bytes :=
  let sks := map rnd (seq 0 (r_n r)) in let seed := map rnd (seq (2 * r_n r) (r_n r)) in
  (sks, map rnd (seq (r_n r) (r_n r)), mt_root (row_sp r) sks seed, seed).
Lemma keypair_exact mt r pk sk rnd : In r (rows mt) -> (forall i, (rnd i < 256)%N) ->
  length pk = 4 + pk_size r -> length sk = 4 + sk_size r ->
  exists a b c d, fields r a b c d /\ c = mt_root (row_sp r) a d /\ key_material r rnd = (a, b, c, d) /\
    keypair mt ref_core pk sk (r_oid r) rnd = Ok (0%Z, public_key r c d, secret_key r 0 a b c d).
Proof.
  intros Hr Hb Hpk Hsk. pose proof (keypair_rfc mt r pk sk rnd Hr ltac:(lia) ltac:(lia)) as H. cbv zeta in H.
  exists (map rnd (seq 0 (r_n r))), (map rnd (seq (r_n r) (r_n r))), (mt_root (row_sp r) (map rnd (seq 0 (r_n r))) (map rnd (seq (2 * r_n r) (r_n r)))), (map rnd (seq (2 * r_n r) (r_n r))).
  destruct (root_facts mt r (map rnd (seq 0 (r_n r))) (map rnd (seq (2 * r_n r) (r_n r))) Hr) as [Lr Br].
  split; [|split; [reflexivity|split; [reflexivity|]]].
  - split; repeat split; try (rewrite map_length, seq_length; reflexivity); try (now apply rand_bytes); assumption.
  - rewrite H, !skipn_all2, !app_nil_r by lia. reflexivity.
Qed.

(** ** Signing *)
Lemma run_live mt r a b c d : In r (rows mt) -> fields r a b c d -> forall cs i,
  (i + N.of_nat (length cs) < 2 ^ N.of_nat (r_h r))%N -> Forall (call_ok r) cs ->
  exists os, sign_run mt ref_core (secret_key r i a b c d) cs = Ok (secret_key r (i + N.of_nat (length cs)) a b c d, os) /\ length os = length cs /\
   forall k x, nth_error cs k = Some x ->
     nth_error os k = Some (mkSign 0 (secret_key r (i + N.of_nat k + 1) a b c d)
       (mt_sign (row_sp r) a b c d (i + N.of_nat k) (c_m x) ++ c_m x ++ skipn (sig_size r + length (c_m x)) (c_sm x)) (sig_size r + length (c_m x))).
Proof.
  intros Hr Hf. induction cs as [|x cs IH]; intros i Hi Hok.
  - exists []. rewrite N.add_0_r. split; [reflexivity|]. split; [reflexivity|]. intros [|k] x Hx; discriminate.
  - inversion Hok as [|? ? Hx Hok']; subst. cbn [length] in Hi.
    destruct (IH (i + 1)%N ltac:(lia) Hok') as [os [H1 [H2 H3]]].
    cbn [sign_run]. rewrite (step_live HE mt r Hr i a b c d x Hf) by (lia || assumption). rewrite bind_ok. cbn [so_sk]. rewrite H1, bind_ok.
    eexists. split; [|split].
    + cbn [length]. replace (i + 1 + N.of_nat (length cs))%N with (i + N.of_nat (S (length cs)))%N by lia. reflexivity.
    + cbn [length]. now rewrite H2.
    + intros [|k] y Hy.
      * injection Hy as <-. cbn [nth_error]. rewrite N.add_0_r. reflexivity.
      * cbn [nth_error]. rewrite (H3 k y Hy). replace (i + 1 + N.of_nat k)%N with (i + N.of_nat (S k))%N by lia. reflexivity.
Qed.

(** C06, C05 *)
Lemma sign_rfc mt r sk sm smlen m : In r (rows mt) -> key_of r (sk_size r) sk ->
  (sk_index r sk + 1 < 2 ^ N.of_nat (r_h r))%N -> sig_size r + length m <= length sm ->
  exists o, sign mt ref_core sk sm smlen m = Ok o /\ so_rc o = 0%Z /\ so_smlen o = sig_size r + length m /\
    signed_message o = mt_sign (row_sp r) (sk_field r 0 sk) (sk_field r 1 sk) (sk_field r 2 sk) (sk_field r 3 sk) (sk_index r sk) m ++ m.
Proof.
  intros Hr Hk Hi Hm. rewrite (sign_row HE mt r Hr sk Hk sm smlen m Hi Hm). eexists. split; [reflexivity|].
  split; [reflexivity|]. split; [reflexivity|]. unfold signed_message. cbn [so_smlen so_sm].
  rewrite app_assoc. apply firstn_app_len. rewrite app_length. f_equal.
  rewrite <- (p_sig r), <- (sp_of_row r (sk_ref r)). symmetry.
  apply (mt_sign_length _ _ (p_ok mt r Hr) (p_hash HE mt r Hr)).
Qed.
Lemma sign_key_update mt r sk sm smlen m : In r (rows mt) -> key_of r (sk_size r) sk ->
  (sk_index r sk + 1 < 2 ^ N.of_nat (r_h r))%N -> sig_size r + length m <= length sm ->
  exists o, sign mt ref_core sk sm smlen m = Ok o /\ so_rc o = 0%Z /\
    length (so_sk o) = length sk /\ sk_index r (so_sk o) = (sk_index r sk + 1)%N /\
    firstn 4 (so_sk o) = firstn 4 sk /\ skipn (4 + idx_size r) (so_sk o) = skipn (4 + idx_size r) sk.
Proof.
  intros Hr Hk Hi Hm. rewrite (sign_row HE mt r Hr sk Hk sm smlen m Hi Hm). eexists. split; [reflexivity|].
  split; [reflexivity|]. cbn [so_sk]. pose proof (sk_split r sk Hk) as Hs. pose proof (pow_h_le mt r Hr).
  rewrite layout_sk in Hs.
  set (f0 := sk_field r 0 sk) in *. set (f1 := sk_field r 1 sk) in *. set (f2 := sk_field r 2 sk) in *. set (f3 := sk_field r 3 sk) in *.
  set (i := sk_index r sk) in *. clearbody f0 f1 f2 f3 i. rewrite Hs. unfold secret_key. split; [|split; [|split]].
  - rewrite !app_length, !toByte_length. reflexivity.
  - fold (secret_key r (i + 1) f0 f1 f2 f3). rewrite secret_key_index, N.mod_small by lia. reflexivity.
  - now rewrite !firstn_app_len by (now rewrite toByte_length).
  - rewrite !(app_assoc (toByte (r_oid r) 4)).
    rewrite !skipn_app_len by (now rewrite app_length, !toByte_length). reflexivity.
Qed.

(** C22 *)
Lemma sign_safe mt r sk sm smlen m : In r (rows mt) -> key_of r (sk_size r) sk -> sig_size r + length m <= length sm ->
  exists o, sign mt ref_core sk sm smlen m = Ok o /\ (so_rc o = 0%Z \/ so_rc o = (-2)%Z) /\ key_of r (sk_size r) (so_sk o) /\
    length (so_sm o) = length sm /\ skipn (sig_size r + length m) (so_sm o) = skipn (sig_size r + length m) sm.
Proof.
  intros Hr Hk Hm.
  assert (Hf : fields r (sk_field r 0 sk) (sk_field r 1 sk) (sk_field r 2 sk) (sk_field r 3 sk)).
  { split; repeat split; try (apply (sk_fields_length r sk Hk); lia); apply bytes_ok_firstn, bytes_ok_skipn, Hk. }
  pose proof (sk_split r sk Hk) as Hs. rewrite layout_sk in Hs. fold (secret_key r (sk_index r sk) (sk_field r 0 sk) (sk_field r 1 sk) (sk_field r 2 sk) (sk_field r 3 sk)) in Hs.
  set (x := mkCall m sm smlen). assert (Hx : call_ok r x) by exact Hm.
  assert (Hlen : forall sg : bytes, length sg = sig_size r -> length (sg ++ m ++ skipn (sig_size r + length m) sm) = length sm /\
             skipn (sig_size r + length m) (sg ++ m ++ skipn (sig_size r + length m) sm) = skipn (sig_size r + length m) sm).
  { intros sg Hl. split.
    - rewrite !app_length, skipn_length. lia.
    - rewrite app_assoc. apply skipn_app_len. rewrite app_length. lia. }
  destruct (N.lt_total (sk_index r sk + 1) (2 ^ N.of_nat (r_h r))) as [Hi|[Hi|Hi]].
  - rewrite (sign_row HE mt r Hr sk Hk sm smlen m Hi Hm). eexists. split; [reflexivity|]. split; [left; reflexivity|].
    cbn [so_sk so_sm]. split; [now apply secret_key_ok|]. apply Hlen.
    rewrite <- (p_sig r), <- (sp_of_row r (sk_ref r)). apply (mt_sign_length _ _ (p_ok mt r Hr) (p_hash HE mt r Hr)).
  - destruct (step_last HE mt r Hr (sk_index r sk) _ _ _ _ x Hf Hi Hx) as [sg [Hsg Hq]]. rewrite <- Hs in Hq. cbn [c_sm c_smlen c_m x] in Hq.
    rewrite Hq. eexists. split; [reflexivity|]. split; [left; reflexivity|]. cbn [so_sk so_sm]. split; [apply secret_key_ok, zero_fields|].
    apply Hlen. rewrite app_length, repeat_length, Hsg.
    assert (idx_size r <= sig_size r) by (unfold sig_size, sp_sig_bytes, idx_size; lia). lia.
  - rewrite (sign_exhausted_row mt r Hr sk Hk) by (lia || assumption). eexists. split; [reflexivity|]. split; [right; reflexivity|].
    cbn [so_sk so_sm]. split; [|apply Hlen; rewrite firstn_length; lia].
    destruct (zero_fields r) as [_ [Hz _]]. split; [|split].
    + unfold sk_size. rewrite !app_length, toByte_length, !repeat_length. lia.
    + apply firstn_app_len. now rewrite toByte_length.
    + rewrite !bytes_ok_app. repeat split; try exact Hz; [apply toByte_ok|].
      apply Forall_forall. intros y Hy. apply repeat_spec in Hy. subst. reflexivity.
Qed.

(** C44, C45 *)
Lemma sign_refused mt r sk sm smlen m o : In r (rows mt) -> key_of r (sk_size r) sk -> sig_size r + length m <= length sm ->
  sign mt ref_core sk sm smlen m = Ok o -> so_rc o = (-2)%Z ->
  so_sk o = firstn 4 sk ++ repeat 255%N (idx_size r) ++ repeat 0%N (4 * r_n r) /\
  so_sm o = firstn (sig_size r) sm ++ m ++ skipn (sig_size r + length m) sm /\ so_smlen o = sig_size r + length m.
Proof.
  intros Hr Hk Hm Ho Hrc. destruct (N.lt_total (sk_index r sk + 1) (2 ^ N.of_nat (r_h r))) as [Hi|[Hi|Hi]].
  - rewrite (sign_row HE mt r Hr sk Hk sm smlen m Hi Hm) in Ho. injection Ho as <-. discriminate.
  - rewrite (sign_last_row HE mt r Hr sk Hk sm smlen m Hi Hm) in Ho. injection Ho as <-. discriminate.
  - rewrite (sign_exhausted_row mt r Hr sk Hk) in Ho by (lia || assumption). injection Ho as <-. cbn [so_sk so_sm so_smlen].
    destruct Hk as [_ [-> _]]. split; [|split; reflexivity].
    replace (4 * r_n r) with (r_n r + (r_n r + (r_n r + r_n r))) by lia. rewrite !repeat_app. reflexivity.
Qed.

(** C02: the last signature does not depend on the key *)
Lemma refused_writes mt r sk sm smlen m : In r (rows mt) -> key_of r (sk_size r) sk -> (2 ^ N.of_nat (r_h r) <= sk_index r sk)%N ->
  sig_size r + length m <= length sm ->
  exists o, sign mt ref_core sk sm smlen m = Ok o /\ so_rc o = (-2)%Z /\
    so_smlen o = sig_size r + length m /\ firstn (length m) (skipn (sig_size r) (so_sm o)) = m.
Proof.
  intros Hr Hk Hi Hl. eexists. split; [exact (sign_exhausted_row mt r Hr sk Hk sm smlen m Hi Hl)|]. split; [reflexivity|]. split; [reflexivity|].
  cbn [so_sm]. rewrite skipn_app_len by (rewrite firstn_length; lia). apply firstn_app_len. reflexivity.
Qed.

Lemma last_signature_keyless mt r sk1 sk2 sm1 sm2 l1 l2 m : In r (rows mt) -> key_of r (sk_size r) sk1 -> key_of r (sk_size r) sk2 ->
  (sk_index r sk1 + 1 = 2 ^ N.of_nat (r_h r))%N -> (sk_index r sk2 + 1 = 2 ^ N.of_nat (r_h r))%N ->
  sig_size r + length m <= length sm1 -> sig_size r + length m <= length sm2 ->
  exists o1 o2, sign mt ref_core sk1 sm1 l1 m = Ok o1 /\ sign mt ref_core sk2 sm2 l2 m = Ok o2 /\
    so_rc o1 = 0%Z /\ so_rc o2 = 0%Z /\ signed_message o1 = signed_message o2.
Proof.
  intros Hr K1 K2 I1 I2 M1 M2.
  rewrite (sign_last_row HE mt r Hr sk1 K1 sm1 l1 m I1 M1), (sign_last_row HE mt r Hr sk2 K2 sm2 l2 m I2 M2).
  eexists. eexists. split; [reflexivity|]. split; [reflexivity|]. split; [reflexivity|]. split; [reflexivity|].
  assert (Hx : sk_index r sk1 = sk_index r sk2) by lia. unfold signed_message. cbn [so_sm so_smlen]. rewrite Hx.
  match goal with |- firstn _ (?a ++ ?b ++ ?c ++ m ++ ?t1) = firstn _ (_ ++ _ ++ _ ++ m ++ ?t2) => 
    assert (L : length (a ++ b ++ c) = sig_size r) end.
  { rewrite !app_length, repeat_length. rewrite <- (sp_of_row r (sk_ref r)), (PRF_length _ _ (p_hash HE mt r Hr)).
    rewrite <- (row_dd r (sk_ref r)), (layers_length _ _ (p_ok mt r Hr) (p_hash HE mt r Hr)).
    rewrite <- (p_sig r), <- (p_ib r), (sig_bytes_eq _ (p_ok mt r Hr)). lia. }
  match goal with |- firstn _ (?a ++ ?b ++ ?c ++ m ++ ?t1) = firstn _ (_ ++ _ ++ _ ++ m ++ ?t2) => 
    replace (a ++ b ++ c ++ m ++ t1) with (((a ++ b ++ c) ++ m) ++ t1) by (rewrite <- !app_assoc; reflexivity);
    replace (a ++ b ++ c ++ m ++ t2) with (((a ++ b ++ c) ++ m) ++ t2) by (rewrite <- !app_assoc; reflexivity) end.
  rewrite !firstn_app_len by (rewrite app_length, L; reflexivity). reflexivity.
Qed.

(** ** Opening *)
Lemma sk_ref_fast r : (sk_ref r <= sk_fast r)%N.
Proof. unfold sk_fast. apply N.le_trans with (sk_ref r + 0)%N; [lia|]. rewrite <- N.add_assoc. apply N.add_le_mono_l, N.le_0_l. Qed.
Lemma open_any mt r c mbuf mlen sm pk : In r (rows mt) -> a_core c ->
  key_of r (pk_size r) pk -> sig_size r <= length sm -> bytes_ok (firstn (idx_size r) sm) -> length sm <= length mbuf ->
  let msg := skipn (sig_size r) sm in
  exists m', sign_open mt c mbuf mlen sm pk =
    Ok (if mt_verify (row_sp r) (firstn (r_n r) (skipn 4 pk)) (skipn (4 + r_n r) pk) (firstn (sig_size r) sm) msg
        then mkOpen 0 (msg ++ skipn (length msg) m') (length msg)
        else mkOpen (-1) (repeat 0%N (length msg) ++ skipn (length msg) m') 0) /\
    length m' = length mbuf /\ skipn (sig_size r) m' = msg ++ skipn (sig_size r + length msg) mbuf.
Proof.
  intros Hr Hc Hk Hl Hb Hm. cbv zeta. assert (Hlen : length (skipn (sig_size r) sm) = length sm - sig_size r) by apply skipn_length.
  destruct Hc as [->| ->].
  - apply (open_row HE mt r Hr ref_core (sk_ref r) mbuf mlen sm pk (skipn (sig_size r) sm)); try assumption; try lia.
    + exact (parse_accept_ref mt r uninit_params Hr).
    + reflexivity.
  - apply (open_row HE mt r Hr fast_core (sk_fast r) mbuf mlen sm pk (skipn (sig_size r) sm)); try assumption; try lia.
    + exact (parse_accept_fast mt r uninit_params Hr).
    + apply sk_ref_fast.
    + reflexivity.
Qed.

(** C07, C18, C20 *)
Lemma open_decides_ix mt r c mbuf mlen sm pk : In r (rows mt) -> a_core c ->
  key_of r (pk_size r) pk -> sig_size r <= length sm -> bytes_ok (firstn (idx_size r) sm) -> length sm <= length mbuf ->
  let msg := skipn (sig_size r) sm in
  exists o, sign_open mt c mbuf mlen sm pk = Ok o /\ length (oo_m o) = length mbuf /\
    (mt_verify (row_sp r) (firstn (r_n r) (skipn 4 pk)) (skipn (4 + r_n r) pk) (firstn (sig_size r) sm) msg = true ->
       oo_rc o = 0%Z /\ oo_mlen o = length msg /\ firstn (length msg) (oo_m o) = msg) /\
    (mt_verify (row_sp r) (firstn (r_n r) (skipn 4 pk)) (skipn (4 + r_n r) pk) (firstn (sig_size r) sm) msg = false ->
       oo_rc o = (-1)%Z /\ oo_mlen o = 0 /\ firstn (length msg) (oo_m o) = repeat 0%N (length msg)) /\
    skipn (length sm) (oo_m o) = skipn (length sm) mbuf.
Proof.
  intros Hr Hc Hk Hl Hb Hm msg. destruct (open_any mt r c mbuf mlen sm pk Hr Hc Hk Hl Hb Hm) as [m' [H1 [H2 H3]]]. fold msg in H1, H3.
  assert (Hlm : length msg = length sm - sig_size r) by (unfold msg; apply skipn_length).
  assert (Ht : forall x : bytes, length x = length msg -> length (x ++ skipn (length msg) m') = length mbuf /\ skipn (length sm) (x ++ skipn (length msg) m') = skipn (length sm) mbuf).
  { intros x Hx. split; [rewrite app_length, skipn_length; lia|]. rewrite skipn_app, Hx, (skipn_all2 x) by lia. cbn [app]. rewrite skipn_skipn.
    replace (length sm - length msg + length msg) with (length sm) by lia.
    replace (length sm) with (length msg + sig_size r) by lia. rewrite <- skipn_skipn, H3. rewrite skipn_app_len by reflexivity. f_equal. lia. }
  eexists. split; [exact H1|]. destruct (mt_verify _ _ _ _ msg); cbn [oo_rc oo_m oo_mlen].
  - destruct (Ht msg eq_refl) as [T1 T2]. split; [exact T1|]. split; [intros _|split; [discriminate|exact T2]]. split; [reflexivity|]. split; [reflexivity|].
    now apply firstn_app_len.
  - destruct (Ht (repeat 0%N (length msg)) (repeat_length _ _)) as [T1 T2]. split; [exact T1|]. split; [discriminate|split; [intros _|exact T2]]. split; [reflexivity|]. split; [reflexivity|].
    apply firstn_app_len. now rewrite repeat_length.
Qed.
Lemma open_decides mt r c mbuf mlen sm pk : In r (rows mt) -> a_core c ->
  key_of r (pk_size r) pk -> sig_size r <= length sm -> bytes_ok sm -> length sm <= length mbuf ->
  let msg := skipn (sig_size r) sm in
  exists o, sign_open mt c mbuf mlen sm pk = Ok o /\ length (oo_m o) = length mbuf /\
    (mt_verify (row_sp r) (firstn (r_n r) (skipn 4 pk)) (skipn (4 + r_n r) pk) (firstn (sig_size r) sm) msg = true ->
       oo_rc o = 0%Z /\ oo_mlen o = length msg /\ firstn (length msg) (oo_m o) = msg) /\
    (mt_verify (row_sp r) (firstn (r_n r) (skipn 4 pk)) (skipn (4 + r_n r) pk) (firstn (sig_size r) sm) msg = false ->
       oo_rc o = (-1)%Z /\ oo_mlen o = 0 /\ firstn (length msg) (oo_m o) = repeat 0%N (length msg)) /\
    skipn (length sm) (oo_m o) = skipn (length sm) mbuf.
Proof. intros Hr Hc Hk Hl Hb. apply (open_decides_ix mt r c mbuf mlen sm pk Hr Hc Hk Hl). now apply bytes_ok_firstn. Qed.
(** C21 *)
Lemma open_leaks mt r c mbuf mlen sm pk o : In r (rows mt) -> a_core c ->
  key_of r (pk_size r) pk -> sig_size r <= length sm -> bytes_ok sm -> length sm <= length mbuf ->
  let msg := skipn (sig_size r) sm in
  sign_open mt c mbuf mlen sm pk = Ok o -> oo_rc o = (-1)%Z -> length msg <= sig_size r ->
  firstn (length msg) (skipn (sig_size r) (oo_m o)) = msg.
Proof.
  intros Hr Hc Hk Hl Hb Hm msg Ho Hrc Hs. destruct (open_any mt r c mbuf mlen sm pk Hr Hc Hk Hl (bytes_ok_firstn _ _ Hb) Hm) as [m' [H1 [H2 H3]]]. fold msg in H1, H3.
  rewrite H1 in Ho. injection Ho as <-. destruct (mt_verify _ _ _ _ msg); [discriminate|]. cbn [oo_m].
  rewrite skipn_app, repeat_length, skipn_all2 by (rewrite repeat_length; lia). cbn [app]. rewrite skipn_skipn.
  replace (sig_size r - length msg + length msg) with (sig_size r) by lia. rewrite H3. now apply firstn_app_len.
Qed.
End Gen.
