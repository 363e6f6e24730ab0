(** C66 at the API. *)
From Verif Require Import Base Lib ModelUtils ModelParams ModelHash ModelWots ModelCommons ModelCore ModelCoreFast ModelXmss ModelInPlace SpecRfc SpecParams SpecApi
  SpecComp SpecFast SpecSec SpecForge SpecInPlace ProofUtils ProofHash ProofParams ProofApi ProofHistory ProofMain ProofUi2 ProofFast3 ProofFast4 ProofFast6 ProofFast6 ProofAny ProofForge2 ProofInPlace.

Section Api.
Context {E : Env}.
Hypothesis HE : env_ok E.
Variables (mt : bool) (r : row).
Hypothesis Hr : In r (rows mt).
Notation P := (row_sp r).
Notation n := (r_n r).

Lemma copy_is sm om m sg : holds sm om m -> apart sg om (length m) -> sg + length m <= length sm -> memcpy_in sm sg om (length m) = wr sm sg m.
Proof.
  intros [Hl Hm] Ha Hs. destruct m as [|x m]; [apply memcpy_nil; cbn [length] in *; lia|].
  rewrite memcpy_apart; [now rewrite Hm|exact Ha|exact Hl|cbn [length]; lia].
Qed.

Lemma sign_in_eq fast x sm smlen om mlen : sign_in mt fast (toByte (r_oid r) 4 ++ x) sm smlen om mlen =
  (let* o := (if fast then if mt then fast_xmssmt_core_sign_in else fast_xmss_core_sign_in else ref_xmssmt_core_sign_in)
               (row_params r (if fast then sk_fast r else sk_ref r)) x sm smlen om mlen in
   Ok (mkSign (so_rc o) (toByte (r_oid r) 4 ++ so_sk o) (so_sm o) (so_smlen o))).
Proof.
  pose proof (parse_accept_fast mt r uninit_params Hr) as Hq. pose proof (parse_accept_ref mt r uninit_params Hr) as Hq'. pose proof (row_oid_bytes mt r x Hr) as Ho.
  unfold sign_in, sign_wrapper. rewrite Ho, bind_ok. unfold ProofParams.parse_oid in Hq, Hq'.
  destruct fast, mt; rewrite ?Hq, ?Hq', bind_ok; unfold XMSS_OID_LEN;
    rewrite !(ProofCore.skipn_app_len (toByte (r_oid r) 4)), !(ProofCore.firstn_app_len (toByte (r_oid r) 4)) by (now rewrite toByte_length); reflexivity.
Qed.

Lemma ref_in_place sk sm smlen om m : firstn 4 sk = toByte (r_oid r) 4 -> sig_size r + length m <= length sm -> holds sm om m -> apart (sig_size r) om (length m) ->
  sign_in mt false sk sm smlen om (length m) = sign mt ref_core sk sm smlen m.
Proof.
  intros Hk Hl Hh Ha. rewrite <- (firstn_skipn 4 sk), Hk. rewrite sign_in_eq, (sign_eq mt r Hr). rewrite ref_in_eq; [reflexivity|].
  rewrite (p_sig r). now apply copy_is.
Qed.

Lemma fast_in_api sk sm smlen om m o : firstn 4 sk = toByte (r_oid r) 4 -> sig_size r + length m <= length sm -> holds sm om m -> om + length m <= sig_size r ->
  sign mt fast_core sk sm smlen m = Ok o -> so_rc o = 0%Z -> so_smlen o = sig_size r + length m ->
  sign_in mt true sk sm smlen om (length m) =
    Ok (mkSign 0 (so_sk o) (firstn (sig_size r) (so_sm o) ++ firstn (length m) (skipn om (so_sm o)) ++ skipn (sig_size r + length m) (so_sm o)) (so_smlen o)).
Proof.
  intros Hk Hl Hh Ha Ho Hrc Hlen. assert (Esk : sk = toByte (r_oid r) 4 ++ skipn 4 sk) by (rewrite <- Hk; symmetry; apply firstn_skipn).
  rewrite Esk in Ho. rewrite Esk. clear Esk. rewrite (fsign_eq mt r Hr) in Ho. apply bind_inv in Ho. destruct Ho as (o1 & Ho & Eo).
  assert (Eq : o = mkSign (so_rc o1) (toByte (r_oid r) 4 ++ so_sk o1) (so_sm o1) (so_smlen o1)) by congruence. clear Eo. subst o. cbn [so_rc so_sk so_sm so_smlen] in *.
  assert (Hc : memcpy_in sm (sig_bytes (row_params r (sk_fast r))) om (length m) = wr sm (sig_bytes (row_params r (sk_fast r))) m).
  { rewrite (fp_sig r). apply copy_is; [exact Hh|right; exact Ha|exact Hl]. }
  pose proof (fast_in _ mt _ sm smlen om m o1 Hc Ho Hrc) as Hg.
  pose proof (again_over (sig_size r) om m o1 _ Hg Hlen Ha) as Hx. rewrite sign_in_eq. cbv iota. rewrite Hx, bind_ok. reflexivity.
Qed.

Lemma sign_run_snoc c : forall cs sk x sk' os, sign_run mt c sk (cs ++ [x]) = Ok (sk', os) ->
  exists sk1 os1 o, sign_run mt c sk cs = Ok (sk1, os1) /\ sign mt c sk1 (c_sm x) (c_smlen x) (c_m x) = Ok o /\ os = os1 ++ [o] /\ sk' = so_sk o.
Proof.
  induction cs as [|y cs IH]; intros sk x sk' os H0.
  - cbn [app sign_run] in H0. apply bind_inv in H0. destruct H0 as (o & Ho & H0). rewrite bind_ok in H0. exists sk, [], o. cbn [sign_run app]. split; [reflexivity|]. split; [exact Ho|]. split; congruence.
  - cbn [app sign_run] in H0 |- *. apply bind_inv in H0. destruct H0 as (o & Ho & H0). apply bind_inv in H0. destruct H0 as ((s1 & o1) & H1 & H0).
    destruct (IH _ _ _ _ H1) as (sk1 & os1 & o' & R1 & R2 & R3 & R4). exists sk1, (o :: os1), o'. rewrite Ho, bind_ok, R1, bind_ok. split; [reflexivity|]. split; [exact R2|].
    split; [rewrite <- app_comm_cons; congruence|congruence].
Qed.

Lemma fast_in_place rnd pk0 sk0 cs pk sk sk' os : (forall i, (rnd i < 256)%N) ->
  length pk0 = 4 + pk_size r -> length sk0 = 4 + fast_size r -> bytes_ok sk0 ->
  keypair mt fast_core pk0 sk0 (r_oid r) rnd = Ok (0%Z, pk, sk) -> (N.of_nat (length cs) + 1 < fast_limit r)%N -> Forall (call_ok r) cs ->
  sign_run mt fast_core sk cs = Ok (sk', os) ->
  forall sm smlen om m, sig_size r + length m <= length sm -> holds sm om m -> om + length m <= sig_size r -> bytes_ok m ->
  exists o oi, sign mt fast_core sk' sm smlen m = Ok o /\ so_rc o = 0%Z /\
    sign_in mt true sk' sm smlen om (length m) = Ok oi /\ so_rc oi = 0%Z /\ so_sk oi = so_sk o /\
    let given := firstn (sig_size r) (signed_message o) in
    let m' := firstn (length m) (skipn om given) in
    firstn (idx_size r) given = toByte (N.of_nat (length cs)) (idx_size r) /\ signed_message o = given ++ m /\ signed_message oi = given ++ m' /\
    (m' <> m -> forall c mbuf mlen oo, a_core c -> length (signed_message oi) <= length mbuf ->
       sign_open mt c mbuf mlen (signed_message oi) pk = Ok oo -> oo_rc oo = 0%Z ->
       let seed := sk_field r 3 sk in let rt := sk_field r 2 sk in
       let released := map (fun o => (firstn (sig_size r) (signed_message o), skipn (sig_size r) (signed_message o))) (os ++ [o]) in
       let forged := verify_queries P seed rt given m' in
       hash_collision P seed (verify_queries P seed rt given m) forged \/ inverted P seed rt released given m forged).
Proof.
  intros Hb Lp Ls Bs Hkp Hn Hok Hrun sm smlen om m Hl Hh Ha Bm.
  set (x := mkCall m sm smlen). assert (Hok' : Forall (call_ok r) (cs ++ [x])) by (apply Forall_app; split; [exact Hok|repeat constructor; exact Hl]).
  assert (Hn' : (N.of_nat (length (cs ++ [x])) < fast_limit r)%N) by (rewrite app_length; cbn [length]; lia).
  destruct (signer_run HE mt r Hr fast_core _ _ (signer_fast r) rnd pk0 sk0 (cs ++ [x]) pk sk Hb Lp Ls Bs Hkp Hn' Hok') as (a & b & ct & d & ext & ext' & os' & Hf & Hct & Epk & Esk & Hrun' & Hlo & Hnth).
  pose proof (sign_run_snoc _ _ _ _ _ _ Hrun') as (sk1 & os1 & o & R1 & R2 & R3 & R4). rewrite Hrun in R1. assert (sk1 = sk') by congruence. assert (os1 = os) by congruence. subst sk1 os1. clear R1.
  assert (Lo : length os = length cs). { rewrite R3 in Hlo. rewrite !app_length in Hlo. cbn [length] in Hlo. lia. }
  assert (Hnx : nth_error (cs ++ [x]) (length cs) = Some x) by (rewrite nth_error_app2, Nat.sub_diag by lia; reflexivity).
  destruct (Hnth (length cs) x Hnx) as (o' & Ho' & Hrc & Hlen & Hsm).
  assert (Ho2 : nth_error os' (length cs) = Some o) by (rewrite R3, <- Lo, nth_error_app2, Nat.sub_diag by lia; reflexivity).
  assert (o' = o) by congruence. subst o'. cbn [c_m c_sm c_smlen x] in *.
  assert (Hk4 : firstn 4 sk' = toByte (r_oid r) 4).
  { destruct (signer_run HE mt r Hr fast_core _ _ (signer_fast r) rnd pk0 sk0 cs pk sk Hb Lp Ls Bs Hkp ltac:(lia) Hok) as (a1 & b1 & c1 & d1 & e1 & e1' & o1 & _ & _ & _ & _ & Hrun1 & _).
    assert (Es : sk' = secret_key r (N.of_nat (length cs)) a1 b1 c1 d1 ++ e1') by congruence. rewrite Es. unfold secret_key. rewrite <- !app_assoc. apply ProofCore.firstn_app_len. now rewrite toByte_length. }
  pose proof (fast_in_api sk' sm smlen om m o Hk4 Hl Hh Ha R2 Hrc Hlen) as Hin.
  set (sg := mt_sign P a b ct d (N.of_nat (length cs)) m) in *.
  assert (Lsg : length sg = sig_size r) by (apply (mt_sign_len HE mt r Hr)).
  assert (Eso : signed_message o = sg ++ m). { unfold signed_message. rewrite Hlen, Hsm, app_assoc. apply ProofCore.firstn_app_len. rewrite app_length, Lsg. reflexivity. }
  assert (Eg : firstn (sig_size r) (signed_message o) = sg) by (rewrite Eso; now apply ProofCore.firstn_app_len).
  eexists o, _. split; [exact R2|]. split; [exact Hrc|]. split; [exact Hin|]. split; [reflexivity|]. split; [reflexivity|].
  cbv zeta. rewrite Eg. split; [unfold sg, mt_sign; apply ProofCore.firstn_app_len; now rewrite toByte_length|]. split; [exact Eso|].
  assert (Esl : firstn (length m) (skipn om (so_sm o)) = firstn (length m) (skipn om sg)).
  { rewrite Hsm. rewrite skipn_app, firstn_app, skipn_length. replace (length m - (length sg - om)) with 0 by lia. cbn [firstn]. apply app_nil_r. }
  assert (Esi : signed_message (mkSign 0 (so_sk o) (firstn (sig_size r) (so_sm o) ++ firstn (length m) (skipn om (so_sm o)) ++ skipn (sig_size r + length m) (so_sm o)) (so_smlen o)) = sg ++ firstn (length m) (skipn om sg)).
  { unfold signed_message. cbn [so_sm so_smlen]. rewrite Esl. rewrite Hsm at 1. rewrite (ProofCore.firstn_app_len sg) by (symmetry; exact Lsg). rewrite app_assoc. apply ProofCore.firstn_app_len.
    rewrite app_length, firstn_length, skipn_length. lia. }
  split; [exact Esi|]. intros Hne c mbuf mlen oo Hc Lmb Hop Hoo.
  set (m' := firstn (length m) (skipn om sg)) in *. rewrite Esi in *.
  pose proof (mt_sign_bytes HE mt r Hr a b ct d (N.of_nat (length cs)) m) as Bsg. fold sg in Bsg.
  assert (Bm' : bytes_ok m') by (unfold m'; apply bytes_ok_firstn, bytes_ok_skipn; exact Bsg).
  pose proof (api_modified HE mt r Hr fast_core _ _ (signer_fast r) rnd pk0 sk0 (cs ++ [x]) pk sk _ os' (length cs) x o c mbuf mlen (sg ++ m') oo Hb Lp Ls Bs Hkp Hn' Hok' Hrun' Hnx Ho2 Bm Hc) as Q.
  cbn [c_m x] in Q. rewrite Eg, R3 in Q. assert (Q1 : firstn (sig_size r) (sg ++ m') = sg) by (now apply ProofCore.firstn_app_len). assert (Q2 : skipn (sig_size r) (sg ++ m') = m') by (now apply ProofCore.skipn_app_len).
  rewrite Q1, Q2 in Q. cbv zeta in Q. apply Q.
  - rewrite app_length. lia.
  - rewrite bytes_ok_app. split; assumption.
  - exact Lmb.
  - rewrite Eso. assert (Hsz : idx_size r <= length sg) by (rewrite Lsg; unfold sig_size, sp_sig_bytes, idx_size; lia). rewrite !firstn_app. replace (idx_size r - length sg) with 0 by lia. reflexivity.
  - rewrite Eso. intros EE. apply app_inv_head in EE. contradiction.
  - exact Hop.
  - exact Hoo.
Qed.

(** opening in place *)
Lemma open_in_eq c buf mlen smlen x skb : ProofParams.parse_oid mt (c_sk_bytes c) uninit_params (r_oid r) = Ok (Some (row_params r skb)) ->
  sign_open_in mt c buf mlen smlen (toByte (r_oid r) 4 ++ x) = xmssmt_core_sign_open_in (row_params r skb) buf smlen x.
Proof.
  pose proof (row_oid_bytes mt r x Hr) as Ho. intros Hc. unfold sign_open_in. rewrite Ho, bind_ok. unfold ProofParams.parse_oid in Hc.
  destruct mt; rewrite Hc, bind_ok; unfold XMSS_OID_LEN; rewrite (ProofCore.skipn_app_len (toByte (r_oid r) 4)) by (now rewrite toByte_length); reflexivity.
Qed.
Lemma open_core_pick c : a_core c -> exists skb, ProofParams.parse_oid mt (c_sk_bytes c) uninit_params (r_oid r) = Ok (Some (row_params r skb)) /\ (sk_ref r <= skb)%N.
Proof.
  intros [->| ->]; eexists; split; [exact (parse_accept_ref mt r uninit_params Hr)|apply N.le_refl|exact (parse_accept_fast mt r uninit_params Hr)|apply sk_ref_fast].
Qed.

Lemma open_in_place core lim size : signer r core lim size -> forall rnd pk0 sk0 cs pk sk sk' os j x o c mlen, (forall i, (rnd i < 256)%N) ->
  length pk0 = 4 + pk_size r -> length sk0 = 4 + size -> bytes_ok sk0 ->
  keypair mt core pk0 sk0 (r_oid r) rnd = Ok (0%Z, pk, sk) -> (N.of_nat (length cs) < lim)%N -> Forall (call_ok r) cs ->
  sign_run mt core sk cs = Ok (sk', os) -> nth_error cs j = Some x -> nth_error os j = Some o -> bytes_ok (c_m x) -> a_core c ->
  let sm := signed_message o in
  let seed := sk_field r 3 sk in let rt := sk_field r 2 sk in
  let sm' := hash_prefix_over r rt sm in
  let released := map (fun o => (firstn (sig_size r) (signed_message o), skipn (sig_size r) (signed_message o))) os in
  let forged := verify_queries P seed rt (firstn (sig_size r) sm') (c_m x) in
  let given := firstn (sig_size r) sm in
  sm' <> sm ->
  (exists oo, sign_open_in mt c sm mlen (length sm) pk = Ok oo /\ oo_rc oo = (-1)%Z /\ oo_mlen oo = 0) \/
  hash_collision P seed (verify_queries P seed rt given (c_m x)) forged \/ inverted P seed rt released given (c_m x) forged.
Proof.
  intros Hs rnd pk0 sk0 cs pk sk sk' os j x o c mlen Hb Lp Ls Bs Hkp Hn Hok Hrun Hx Ho Bm Hc sm seed rt sm' released forged given Hne.
  destruct (signer_run HE mt r Hr core lim size Hs rnd pk0 sk0 cs pk sk Hb Lp Ls Bs Hkp Hn Hok) as (a & b & ct & d & ext & ext' & os' & Hf & Hct & Epk & Esk & Hrun' & Hl & Hnth).
  assert (Eos : os' = os) by congruence. subst os'. clear Hrun'.
  pose proof (good_gave HE mt r Hr a b ct d cs os Hl Hnth) as Hg. pose proof (proj2 Hg j x o Hx Ho) as Esm. fold sm in Esm.
  set (sg := mt_sign P a b ct d (N.of_nat j) (c_m x)) in *.
  assert (Lsg : length sg = sig_size r) by (apply (mt_sign_len HE mt r Hr)).
  pose proof (mt_sign_bytes HE mt r Hr a b ct d (N.of_nat j) (c_m x)) as Bsg. fold sg in Bsg.
  assert (Lsm : length sm = sig_size r + length (c_m x)) by (rewrite Esm, app_length; lia).
  assert (Bsm : bytes_ok sm) by (rewrite Esm, bytes_ok_app; now split).
  pose proof Hf as [[La [Lb [Lc Ld]]] [Ba [Bb [Bc Bd]]]].
  assert (Ert : rt = ct). { unfold rt. rewrite Esk. destruct (fsk_parts r 0 a b ct d ext Hf) as (_ & _ & _ & _ & _ & Q3 & _). exact Q3. }
  destruct (open_core_pick c Hc) as (skb & Hpick & Hskb).
  set (p := row_params r skb) in *.
  pose proof (row_params_ok mt r skb Hr Hskb) as Hp. fold p in Hp.
  assert (Hsig : ModelParams.sig_bytes p = sig_size r) by exact (p_sig r).
  assert (Hib : index_bytes p = idx_size r) by exact (p_ib r).
  assert (Hnn : p_n p = n) by apply row_n.
  assert (Epad : padding_len p = sp_pad P) by (unfold p; rewrite row_pad; reflexivity).
  assert (Ekx : pk = toByte (r_oid r) 4 ++ (ct ++ d)) by (rewrite Epk; reflexivity).
  assert (Ecl : clobbered p sm (ct ++ d) = sm').
  { unfold clobbered, sm', hash_prefix_over, sm_index. rewrite Hsig, Hib, Hnn, Epad, Ert.
    rewrite (ProofCore.firstn_app_len ct) by (now rewrite Lc). rewrite <- !app_assoc. do 2 f_equal. lia. }
  assert (Lsm' : length sm' = length sm). { rewrite <- Ecl. apply (clob_len p Hp); [lia|rewrite app_length; lia]. }
  assert (Bpk : skipn (sig_size r) sm' = c_m x).
  { rewrite <- Ecl, <- Hsig. rewrite (clob_back p Hp); [|lia|rewrite app_length; lia]. rewrite Hsig, Esm. now apply ProofCore.skipn_app_len. }
  pose proof (po_pad p Hp) as Hpad.
  assert (Bsm' : bytes_ok sm').
  { unfold sm', hash_prefix_over. rewrite !bytes_ok_app. rewrite Ert. repeat split; try apply toByte_ok; try assumption;
      try (apply bytes_ok_firstn); try (apply bytes_ok_skipn); assumption. }
  assert (Hix : firstn (idx_size r) sm' = firstn (idx_size r) sm). { rewrite <- Ecl. apply clob_front; rewrite ?app_length; lia. }
  pose proof (pk_is_key r a b ct d Hf) as Hpkk. rewrite <- Epk in Hpkk.
  destruct (open_decides HE mt r c sm mlen sm' pk Hr Hc Hpkk) as (oo & Hop & _); [lia|exact Bsm'|lia|].
  destruct (Z.eq_dec (oo_rc oo) 0) as [Hz|Hz].
  - right. pose proof (api_modified HE mt r Hr core lim size Hs rnd pk0 sk0 cs pk sk sk' os j x o c sm mlen sm' oo Hb Lp Ls Bs Hkp Hn Hok Hrun Hx Ho Bm Hc ltac:(lia) Bsm' ltac:(lia) Hix Hne Hop Hz) as Q.
    cbv zeta in Q. rewrite Bpk in Q. exact Q.
  - left. rewrite Ekx in Hop |- *. rewrite (open_eq mt r Hr c _ _ _ _ skb Hpick) in Hop. rewrite (open_in_eq c _ _ _ _ skb Hpick).
    rewrite <- Ecl in Hop. fold p in Hop |- *.
    pose proof (open_in_rejects p (row_hash r) Hp (row_hash_total mt r skb HE Hr) sm (ct ++ d)) as Q.
    rewrite (Q ltac:(lia) ltac:(rewrite Hib; now apply bytes_ok_firstn) ltac:(rewrite app_length; lia) sm oo Hop Hz). eexists. split; [reflexivity|]. split; reflexivity.
Qed.
End Api.
