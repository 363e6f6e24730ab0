(** Histories, determinism, rejected inputs, refutations. *)
From Coq Require Import String.
From Verif Require Import Base Lib ModelUtils ModelParams ModelHash ModelWots ModelCommons ModelCore ModelCoreFast ModelXmss
  SpecRfc SpecParams SpecApi ProofUtils ProofHash ProofWots ProofCommons ProofTree ProofCore ProofParams ProofApi ProofHistory ProofToy ProofMain.

Lemma bytes_ok_concat l : Forall bytes_ok l -> bytes_ok (concat l).
Proof. induction 1 as [|x l Hx _ IH]; [constructor|]. cbn [concat]. rewrite bytes_ok_app. auto. Qed.

Section Hist.
Context {E : Env}.
Hypothesis HE : env_ok E.

(** C01 *)
Lemma sign_then_open mt r rnd pk0 sk0 cs m sm smlen mbuf mlen c : In r (rows mt) -> (forall i, (rnd i < 256)%N) ->
  length pk0 = 4 + pk_size r -> length sk0 = 4 + sk_size r -> a_core c ->
  (N.of_nat (length cs) + 1 < 2 ^ N.of_nat (r_h r))%N -> Forall (call_ok r) cs ->
  bytes_ok m -> sig_size r + length m <= length sm -> sig_size r + length m <= length mbuf ->
  exists pk sk sk' os o oo,
    keypair mt ref_core pk0 sk0 (r_oid r) rnd = Ok (0%Z, pk, sk) /\
    sign_run mt ref_core sk cs = Ok (sk', os) /\
    sign mt ref_core sk' sm smlen m = Ok o /\ so_rc o = 0%Z /\ so_smlen o = sig_size r + length m /\
    sign_open mt c mbuf mlen (signed_message o) pk = Ok oo /\
    oo_rc oo = 0%Z /\ oo_mlen oo = length m /\ firstn (length m) (oo_m oo) = m.
Proof.
  intros Hr Hb Hpk Hsk Hc Hi Hok Bm Lsm Lm.
  destruct (keypair_exact HE mt r pk0 sk0 rnd Hr Hb Hpk Hsk) as [a [b [ct [d [Hf [Hct [_ Hkp]]]]]]].
  destruct (run_live HE mt r a b ct d Hr Hf cs 0%N ltac:(lia) Hok) as [os [Hrun _]]. rewrite N.add_0_l in Hrun.
  set (i := N.of_nat (length cs)) in *.
  pose proof (step_live HE mt r Hr i a b ct d (mkCall m sm smlen) Hf Hi Lsm) as Hs. cbn [c_m c_sm c_smlen] in Hs.
  set (sg := mt_sign (row_sp r) a b ct d i m) in *.
  assert (Lsg : length sg = sig_size r).
  { unfold sg. rewrite <- (p_sig r), <- (sp_of_row r (sk_ref r)). apply (mt_sign_length _ _ (p_ok mt r Hr) (p_hash HE mt r Hr)). }
  destruct Hf as [[La [Lb [Lc Ld]]] [Ba [Bb [Bc Bd]]]].
  assert (Hv : mt_verify (row_sp r) ct d sg m = true).
  { unfold sg. rewrite Hct. rewrite <- (sp_of_row r (sk_ref r)).
    apply (mt_sign_verifies _ _ (p_ok mt r Hr) (p_hash HE mt r Hr)); rewrite ?row_n, ?row_h; lia || assumption. }
  assert (Bsg : bytes_ok sg).
  { unfold sg, mt_sign. rewrite !bytes_ok_app. split; [apply toByte_ok|].
    pose proof (p_hash HE mt r Hr) as HH. rewrite <- (sp_of_row r (sk_ref r)). split; [apply (Hf_bytes _ _ HH)|].
    apply bytes_ok_concat. apply Forall_forall. intros x Hx. apply in_map_iff in Hx. destruct Hx as [k [<- _]].
    unfold layer_sig. rewrite bytes_ok_app. split; apply bytes_ok_concat, Forall_forall; intros y Hy.
    - unfold wots_sig in Hy. apply in_map_iff in Hy. destruct Hy as [ch [<- _]]. apply (chain_bytes _ _ HH), (Hf_bytes _ _ HH).
    - unfold auth_path in Hy. apply in_map_iff in Hy. destruct Hy as [ch [<- _]]. apply (node_bytes _ _ HH). }
  assert (Hsm : signed_message (mkSign 0 (secret_key r (i + 1) a b ct d) (sg ++ m ++ skipn (sig_size r + length m) sm) (sig_size r + length m)) = sg ++ m).
  { unfold signed_message. cbn [so_smlen so_sm]. rewrite app_assoc. apply firstn_app_len. rewrite app_length. lia. }
  assert (Hkey : key_of r (pk_size r) (public_key r ct d)).
  { unfold public_key, pk_size. split; [rewrite !app_length, toByte_length; lia|]. split; [apply firstn_app_len; now rewrite toByte_length|].
    rewrite !bytes_ok_app. repeat split; try assumption. apply toByte_ok. }
  destruct (open_decides HE mt r c mbuf mlen (sg ++ m) (public_key r ct d) Hr Hc Hkey) as [oo [Hoo [_ [Hacc _]]]].
  - rewrite app_length. lia.
  - rewrite bytes_ok_app. auto.
  - rewrite app_length. lia.
  - rewrite (skipn_app_len sg m), (firstn_app_len sg m) in Hacc by lia.
    assert (Hrt : firstn (r_n r) (skipn 4 (public_key r ct d)) = ct).
    { unfold public_key. rewrite skipn_app_len by (now rewrite toByte_length). now apply firstn_app_len. }
    assert (Hsd : skipn (4 + r_n r) (public_key r ct d) = d).
    { unfold public_key. rewrite app_assoc. apply skipn_app_len. rewrite app_length, toByte_length. lia. }
    rewrite Hrt, Hsd in Hacc. destruct (Hacc Hv) as [A1 [A2 A3]].
    exists (public_key r ct d), (secret_key r 0 a b ct d), (secret_key r i a b ct d), os,
      (mkSign 0 (secret_key r (i + 1) a b ct d) (sg ++ m ++ skipn (sig_size r + length m) sm) (sig_size r + length m)), oo.
    rewrite Hsm. repeat split; auto.
Qed.

(** C03 below the last index *)
Lemma indices_count mt r rnd pk0 sk0 cs pk sk : In r (rows mt) -> (forall i, (rnd i < 256)%N) ->
  length pk0 = 4 + pk_size r -> length sk0 = 4 + sk_size r ->
  keypair mt ref_core pk0 sk0 (r_oid r) rnd = Ok (0%Z, pk, sk) ->
  (N.of_nat (length cs) < 2 ^ N.of_nat (r_h r))%N -> Forall (call_ok r) cs ->
  exists sk' os, sign_run mt ref_core sk cs = Ok (sk', os) /\ length os = length cs /\
    forall k o, nth_error os k = Some o -> so_rc o = 0%Z /\ sm_index r (so_sm o) = N.of_nat k.
Proof.
  intros Hr Hb Hpk Hsk Hkp Hi Hok.
  destruct (keypair_exact HE mt r pk0 sk0 rnd Hr Hb Hpk Hsk) as [a [b [ct [d [Hf [Hct [_ Hkp']]]]]]]. rewrite Hkp' in Hkp. injection Hkp as <- <-.
  destruct (run_live HE mt r a b ct d Hr Hf cs 0%N ltac:(lia) Hok) as [os [Hrun [Hl Hn]]].
  exists (secret_key r (0 + N.of_nat (length cs)) a b ct d), os. split; [exact Hrun|]. split; [exact Hl|].
  intros k o Hk. assert (Hlt : k < length cs) by (rewrite <- Hl; apply nth_error_Some; congruence).
  destruct (nth_error cs k) as [x|] eqn:Ex; [|apply nth_error_None in Ex; lia].
  rewrite (Hn k x Ex) in Hk. injection Hk as <-. cbn [so_rc so_sm]. split; [reflexivity|].
  unfold sm_index. rewrite (mt_sign_index r a b ct d), os2ip_toByte. apply N.mod_small.
  pose proof (pow_h_le mt r Hr). lia.
Qed.

(** C03, C04 over a whole history *)
Lemma whole_life mt r rnd pk0 sk0 cs pk sk : In r (rows mt) -> r_h r < 8 * idx_size r -> (forall i, (rnd i < 256)%N) ->
  length pk0 = 4 + pk_size r -> length sk0 = 4 + sk_size r ->
  keypair mt ref_core pk0 sk0 (r_oid r) rnd = Ok (0%Z, pk, sk) -> Forall (call_ok r) cs ->
  exists sk' os, sign_run mt ref_core sk cs = Ok (sk', os) /\ length os = length cs /\
    (forall k o, nth_error os k = Some o ->
       ((N.of_nat k < 2 ^ N.of_nat (r_h r))%N -> so_rc o = 0%Z) /\
       ((N.of_nat k + 1 < 2 ^ N.of_nat (r_h r))%N -> sm_index r (so_sm o) = N.of_nat k) /\
       ((N.of_nat k + 1 = 2 ^ N.of_nat (r_h r))%N -> sm_index r (so_sm o) = (256 ^ N.of_nat (idx_size r) - 1)%N) /\
       ((2 ^ N.of_nat (r_h r) <= N.of_nat k)%N -> so_rc o = (-2)%Z)).
Proof.
  intros Hr Hw Hb Hpk Hsk Hkp Hok.
  destruct (keypair_exact HE mt r pk0 sk0 rnd Hr Hb Hpk Hsk) as [a [b [ct [d [Hf [Hct [_ Hkp']]]]]]]. rewrite Hkp' in Hkp. injection Hkp as <- <-.
  assert (H0 : life_inv r a b ct d 0 (secret_key r 0 a b ct d)).
  { left. split; [|reflexivity]. apply ProofUtils.pow2_pos. }
  destruct (run_inv mt ref_core (life_inv r a b ct d) (call_ok r) (life_out r a b ct d) (life_step HE mt r Hr a b ct d Hf Hw) cs 0%N _ H0 Hok)
    as [sk' [os [Hrun [Hl [_ Hn]]]]].
  exists sk', os. split; [exact Hrun|]. split; [exact Hl|]. intros k o Hk.
  assert (Hlt : k < length cs) by (rewrite <- Hl; apply nth_error_Some; congruence).
  destruct (nth_error cs k) as [x|] eqn:Ex; [|apply nth_error_None in Ex; lia].
  destruct (Hn k x Ex) as [o' [Ho' Hout]]. rewrite Hk in Ho'. injection Ho' as <-. rewrite N.add_0_l in Hout.
  destruct Hout as [O1 [O2 [O3 O4]]]. split; [|split; [|split]].
  - intros Hk2. destruct (N.eq_dec (N.of_nat k + 1) (2 ^ N.of_nat (r_h r))) as [He|Hne]; [apply O3, He|apply O2; lia].
  - intros Hk2. destruct (O2 Hk2) as [_ ->]. unfold sm_index. rewrite (mt_sign_index r a b ct d), os2ip_toByte. apply N.mod_small.
    pose proof (pow_h_le mt r Hr). lia.
  - intros Hk2. destruct (O3 Hk2) as [_ [sg [_ ->]]]. unfold sm_index. rewrite <- app_assoc, firstn_app_len by (now rewrite repeat_length).
    generalize (idx_size r) as q. clear. induction q as [|q IH]; [reflexivity|].
    cbn [repeat]. rewrite os2ip_cons, IH, repeat_length, pow256_S. pose proof (pow256_pos (N.of_nat q)). lia.
  - exact O4.
Qed.
Lemma no_reuse mt r rnd pk0 sk0 cs pk sk : In r (rows mt) -> r_h r < 8 * idx_size r -> (forall i, (rnd i < 256)%N) ->
  length pk0 = 4 + pk_size r -> length sk0 = 4 + sk_size r ->
  keypair mt ref_core pk0 sk0 (r_oid r) rnd = Ok (0%Z, pk, sk) -> Forall (call_ok r) cs ->
  exists sk' os, sign_run mt ref_core sk cs = Ok (sk', os) /\ length os = length cs /\
    forall i j oi oj, i < j -> nth_error os i = Some oi -> nth_error os j = Some oj ->
      so_rc oi = 0%Z -> so_rc oj = 0%Z -> sm_index r (so_sm oi) <> sm_index r (so_sm oj).
Proof.
  intros Hr Hw Hb Hpk Hsk Hkp Hok. destruct (whole_life mt r rnd pk0 sk0 cs pk sk Hr Hw Hb Hpk Hsk Hkp Hok) as [sk' [os [H1 [H2 H3]]]].
  exists sk', os. split; [exact H1|]. split; [exact H2|]. intros i j oi oj Hij Hi Hj Ri Rj He.
  destruct (H3 i oi Hi) as [_ [I1 [_ _]]]. destruct (H3 j oj Hj) as [_ [J1 [J2 J3]]].
  destruct (N.lt_ge_cases (N.of_nat j) (2 ^ N.of_nat (r_h r))) as [Hlt|Hge]; [|rewrite (J3 Hge) in Rj; discriminate].
  rewrite I1 in He by lia.
  destruct (N.eq_dec (N.of_nat j + 1) (2 ^ N.of_nat (r_h r))) as [Hl|Hnl].
  - rewrite (J2 Hl) in He. assert ((2 ^ N.of_nat (r_h r) < 256 ^ N.of_nat (idx_size r))%N) by (rewrite pow256_pow2; apply N.pow_lt_mono_r; lia). lia.
  - rewrite J1 in He by lia. lia.
Qed.

(** C04, C03 for the sets with a full-width index: sign never refuses, indices repeat *)
Lemma never_exhausts mt r rnd pk0 sk0 cs pk sk : In r (rows mt) -> r_h r = 8 * idx_size r -> (forall i, (rnd i < 256)%N) ->
  length pk0 = 4 + pk_size r -> length sk0 = 4 + sk_size r ->
  keypair mt ref_core pk0 sk0 (r_oid r) rnd = Ok (0%Z, pk, sk) -> Forall (call_ok r) cs ->
  exists sk' os, sign_run mt ref_core sk cs = Ok (sk', os) /\ length os = length cs /\
    forall k o, nth_error os k = Some o -> so_rc o = 0%Z /\
      ((N.of_nat k mod 2 ^ N.of_nat (r_h r) + 1 < 2 ^ N.of_nat (r_h r))%N -> sm_index r (so_sm o) = (N.of_nat k mod 2 ^ N.of_nat (r_h r))%N).
Proof.
  intros Hr Hw Hb Hpk Hsk Hkp Hok.
  destruct (keypair_exact HE mt r pk0 sk0 rnd Hr Hb Hpk Hsk) as [a [b [ct [d [Hf [Hct [_ Hkp']]]]]]]. rewrite Hkp' in Hkp. injection Hkp as <- <-.
  assert (H0 : wrap_inv r 0 (secret_key r 0 a b ct d)).
  { exists a, b, ct, d. split; [exact Hf|]. rewrite N.mod_0_l by (apply N.pow_nonzero; discriminate). reflexivity. }
  destruct (run_inv mt ref_core (wrap_inv r) (call_ok r) (wrap_out r) (wrap_step HE mt r Hr Hw) cs 0%N _ H0 Hok)
    as [sk' [os [Hrun [Hl [_ Hn]]]]].
  exists sk', os. split; [exact Hrun|]. split; [exact Hl|]. intros k o Hk.
  assert (Hlt : k < length cs) by (rewrite <- Hl; apply nth_error_Some; congruence).
  destruct (nth_error cs k) as [x|] eqn:Ex; [|apply nth_error_None in Ex; lia].
  destruct (Hn k x Ex) as [o' [Ho' Hout]]. rewrite Hk in Ho'. injection Ho' as <-. rewrite N.add_0_l in Hout.
  destruct Hout as [O1 [O2 O3]]. split; [exact O1|]. intros Hi. unfold sm_index. rewrite (O3 Hi), os2ip_toByte. apply N.mod_small.
  pose proof (pow_h_le mt r Hr). lia.
Qed.

(** C30 *)
Lemma keypair_deterministic mt r rnd pk1 sk1 pk2 sk2 : In r (rows mt) ->
  length pk1 = 4 + pk_size r -> length sk1 = 4 + sk_size r -> length pk2 = 4 + pk_size r -> length sk2 = 4 + sk_size r ->
  keypair mt ref_core pk1 sk1 (r_oid r) rnd = keypair mt ref_core pk2 sk2 (r_oid r) rnd.
Proof.
  intros Hr L1 L2 L3 L4. rewrite !(keypair_rfc HE mt r _ _ rnd Hr) by lia. now rewrite !skipn_all2 by lia.
Qed.
End Hist.

(** C31, C42: two executions with the same hash functions but different uninitialised storage *)
Lemma sign_deterministic s256 s512 j1 j2 mt r sk sm1 sm2 l1 l2 m :
  let E1 := {| sha256 := s256; sha512 := s512; junk := j1 |} in
  let E2 := {| sha256 := s256; sha512 := s512; junk := j2 |} in
  env_ok E1 -> In r (rows mt) -> key_of r (sk_size (E := E1) r) sk ->
  sig_size (E := E1) r + length m <= length sm1 -> sig_size (E := E1) r + length m <= length sm2 ->
  exists o1 o2, sign (E := E1) mt (ref_core (E := E1)) sk sm1 l1 m = Ok o1 /\ sign (E := E2) mt (ref_core (E := E2)) sk sm2 l2 m = Ok o2 /\
    so_rc o1 = so_rc o2 /\ so_sk o1 = so_sk o2 /\ so_smlen o1 = so_smlen o2 /\
    (so_rc o1 = 0%Z -> signed_message o1 = signed_message o2).
Proof.
  intros E1 E2 HE1 Hr Hk M1 M2. assert (HE2 : env_ok E2) by exact HE1.
  change (sk_size (E := E1) r) with (sk_size (E := E2) r) in Hk.
  destruct (N.lt_total (sk_index (E := E1) r sk + 1) (2 ^ N.of_nat (r_h r))) as [Hi|[Hi|Hi]].
  - destruct (sign_rfc (E := E1) HE1 mt r sk sm1 l1 m Hr Hk Hi M1) as [o1 [A1 [B1 [C1 D1]]]].
    destruct (sign_rfc (E := E2) HE2 mt r sk sm2 l2 m Hr Hk Hi M2) as [o2 [A2 [B2 [C2 D2]]]].
    exists o1, o2. split; [exact A1|]. split; [exact A2|]. split; [now rewrite B1, B2|].
    split; [|split; [now rewrite C1, C2|intros _; now rewrite D1, D2]].
    rewrite (sign_row (E := E1) HE1 mt r Hr sk Hk sm1 l1 m Hi M1) in A1. injection A1 as <-.
    rewrite (sign_row (E := E2) HE2 mt r Hr sk Hk sm2 l2 m Hi M2) in A2. injection A2 as <-. reflexivity.
  - rewrite (sign_last_row (E := E1) HE1 mt r Hr sk Hk sm1 l1 m Hi M1), (sign_last_row (E := E2) HE2 mt r Hr sk Hk sm2 l2 m Hi M2).
    eexists. eexists. split; [reflexivity|]. split; [reflexivity|]. split; [reflexivity|]. split; [reflexivity|]. split; [reflexivity|]. intros _.
    destruct (last_signature_keyless (E := E1) HE1 mt r sk sk sm1 sm2 l1 l2 m Hr Hk Hk Hi Hi M1 M2) as [o1 [o2 [A1 [A2 [_ [_ A3]]]]]].
    rewrite (sign_last_row (E := E1) HE1 mt r Hr sk Hk sm1 l1 m Hi M1) in A1. injection A1 as <-.
    rewrite (sign_last_row (E := E1) HE1 mt r Hr sk Hk sm2 l2 m Hi M2) in A2. injection A2 as <-. exact A3.
  - rewrite (sign_exhausted_row (E := E1) mt r Hr sk Hk) by (lia || assumption).
    rewrite (sign_exhausted_row (E := E2) mt r Hr sk Hk) by (exact M2 || (change (sk_index (E := E2) r sk) with (sk_index (E := E1) r sk); lia)).
    eexists. eexists. split; [reflexivity|]. split; [reflexivity|]. split; [reflexivity|]. split; [reflexivity|]. split; [reflexivity|]. discriminate.
Qed.

Lemma open_deterministic s256 s512 j1 j2 mt r c1 c2 mbuf1 mbuf2 l1 l2 sm pk :
  let E1 := {| sha256 := s256; sha512 := s512; junk := j1 |} in
  let E2 := {| sha256 := s256; sha512 := s512; junk := j2 |} in
  env_ok E1 -> In r (rows mt) -> a_core (E := E1) c1 -> a_core (E := E2) c2 -> key_of r (pk_size r) pk ->
  sig_size (E := E1) r <= length sm -> bytes_ok sm -> length sm <= length mbuf1 -> length sm <= length mbuf2 ->
  exists o1 o2, sign_open (E := E1) mt c1 mbuf1 l1 sm pk = Ok o1 /\ sign_open (E := E2) mt c2 mbuf2 l2 sm pk = Ok o2 /\
    oo_rc o1 = oo_rc o2 /\ oo_mlen o1 = oo_mlen o2 /\
    firstn (length sm - sig_size (E := E1) r) (oo_m o1) = firstn (length sm - sig_size (E := E1) r) (oo_m o2).
Proof.
  intros E1 E2 HE1 Hr C1 C2 Hk Hl Hb M1 M2. assert (HE2 : env_ok E2) by exact HE1.
  destruct (open_decides (E := E1) HE1 mt r c1 mbuf1 l1 sm pk Hr C1 Hk Hl Hb M1) as [o1 [A1 [_ [T1 [F1 _]]]]].
  destruct (open_decides (E := E2) HE2 mt r c2 mbuf2 l2 sm pk Hr C2 Hk Hl Hb M2) as [o2 [A2 [_ [T2 [F2 _]]]]].
  exists o1, o2. split; [exact A1|]. split; [exact A2|]. rewrite <- skipn_length.
  change (@row_sp E2 r) with (@row_sp E1 r) in *. change (sig_size (E := E2) r) with (sig_size (E := E1) r) in *.
  destruct (mt_verify (@row_sp E1 r) _ _ _ _) eqn:Ev.
  - destruct (T1 eq_refl) as [X1 [Y1 Z1]]. destruct (T2 eq_refl) as [X2 [Y2 Z2]]. rewrite X1, X2, Y1, Y2, Z1, Z2. auto.
  - destruct (F1 eq_refl) as [X1 [Y1 Z1]]. destruct (F2 eq_refl) as [X2 [Y2 Z2]]. rewrite X1, X2, Y1, Y2, Z1, Z2. auto.
Qed.

(** C16, C17, C19: rejected keys and inputs; any core *)
Section Reject.
Context {E : Env}.
Variables (mt : bool) (c : core).
Lemma keypair_reject pk sk oid rnd : ~ In oid (map r_oid (rows mt)) -> keypair mt c pk sk oid rnd = Ok ((-1)%Z, pk, sk).
Proof.
  intros Hn. pose proof (parse_reject mt (c_sk_bytes c) uninit_params oid Hn) as Hp. unfold ProofParams.parse_oid in Hp.
  unfold keypair. destruct mt; unfold xmssmt_keypair, xmss_keypair, keypair_wrapper; now rewrite Hp, bind_ok.
Qed.
Lemma sign_reject sk sm smlen m : 4 <= length sk -> bytes_ok sk -> (nth 0 sk 0 < 128)%N -> ~ In (os2ip (firstn 4 sk)) (map r_oid (rows mt)) ->
  sign mt c sk sm smlen m = Ok (mkSign (-1) sk sm smlen).
Proof.
  intros Hl Hb H0 Hn. pose proof (parse_reject mt (c_sk_bytes c) uninit_params _ Hn) as Hp. unfold ProofParams.parse_oid in Hp.
  pose proof (oid_of_bytes_spec sk Hl (bytes_ok_firstn _ _ Hb) H0) as Ho.
  unfold sign. destruct mt; unfold xmssmt_sign, xmss_sign, sign_wrapper; now rewrite Ho, bind_ok, Hp, bind_ok.
Qed.
Lemma open_reject m mlen sm pk : 4 <= length pk -> bytes_ok pk -> (nth 0 pk 0 < 128)%N -> ~ In (os2ip (firstn 4 pk)) (map r_oid (rows mt)) ->
  sign_open mt c m mlen sm pk = Ok (mkOpen (-1) m mlen).
Proof.
  intros Hl Hb H0 Hn. pose proof (parse_reject mt (c_sk_bytes c) uninit_params _ Hn) as Hp. unfold ProofParams.parse_oid in Hp.
  pose proof (oid_of_bytes_spec pk Hl (bytes_ok_firstn _ _ Hb) H0) as Ho.
  unfold sign_open. destruct mt; unfold xmssmt_sign_open, xmss_sign_open, open_wrapper; now rewrite Ho, bind_ok, Hp, bind_ok.
Qed.
Lemma oid_ub sk sm smlen m : 4 <= length sk -> (128 <= nth 0 sk 0)%N -> sign mt c sk sm smlen m = UB.
Proof.
  intros Hl H0. pose proof (oid_of_bytes_ub sk Hl H0) as Ho.
  unfold sign. destruct mt; unfold xmssmt_sign, xmss_sign, sign_wrapper; now rewrite Ho.
Qed.
Lemma oid_ub_open m mlen sm pk : 4 <= length pk -> (128 <= nth 0 pk 0)%N -> sign_open mt c m mlen sm pk = UB.
Proof.
  intros Hl H0. pose proof (oid_of_bytes_ub pk Hl H0) as Ho.
  unfold sign_open. destruct mt; unfold xmssmt_sign_open, xmss_sign_open, open_wrapper; now rewrite Ho.
Qed.
End Reject.

Lemma open_truncated {E : Env} mt r c mbuf mlen sm pk : In r (rows mt) -> a_core c ->
  key_of r (pk_size r) pk -> bytes_ok sm -> length sm < sig_size r -> sign_open mt c mbuf mlen sm pk = UB.
Proof.
  intros Hr Hc [Hl [Ho Hb]] Bs Hlt.
  assert (Hex : exists skb, parse_oid mt (c_sk_bytes c) uninit_params (r_oid r) = Ok (Some (row_params r skb)) /\ (sk_ref r <= skb)%N).
  { destruct Hc as [->| ->].
    - exists (sk_ref r). split; [exact (parse_accept_ref mt r uninit_params Hr)|lia].
    - exists (sk_fast r). split; [exact (parse_accept_fast mt r uninit_params Hr)|apply sk_ref_fast]. }
  destruct Hex as [skb [Hp Hs]].
  assert (Hpk : pk = toByte (r_oid r) 4 ++ skipn 4 pk) by (rewrite <- Ho; symmetry; apply firstn_skipn).
  assert (Heq : sign_open mt c mbuf mlen sm pk = xmssmt_core_sign_open (row_params r skb) mbuf sm (skipn 4 pk)) by (rewrite Hpk at 1; now apply open_eq).
  rewrite Heq. unfold pk_size in Hl. unfold xmssmt_core_sign_open. rewrite row_n.
  assert (Hsig : ModelParams.sig_bytes (row_params r skb) = sig_size r) by exact (p_sig r).
  assert (Hib : index_bytes (row_params r skb) = idx_size r) by exact (p_ib r).
  rewrite Hsig, Hib.
  assert (Hrd : forall o, o + r_n r <= 2 * r_n r -> exists x, rd (skipn 4 pk) o (r_n r) = Ok x).
  { intros o Hoo. unfold rd. rewrite skipn_length, Hl. destruct (Nat.leb_spec (o + r_n r) (4 + 2 * r_n r - 4)); [eauto|lia]. }
  destruct (Hrd 0 ltac:(lia)) as [x0 ->]. destruct (Hrd (r_n r) ltac:(lia)) as [x1 ->]. rewrite !bind_ok.
  unfold rd at 1. destruct (Nat.leb_spec (0 + idx_size r) (length sm)) as [Hi|Hi]; [|reflexivity]. rewrite bind_ok.
  rewrite bytes_to_ull_spec.
  - rewrite bind_ok. destruct (Nat.ltb_spec (length sm) (sig_size r)); [reflexivity|lia].
  - rewrite firstn_length. pose proof (idx_size_le mt r Hr). lia.
  - now apply bytes_ok_firstn, bytes_ok_skipn.
Qed.
