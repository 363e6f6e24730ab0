(** Property theorems: one buffer for the message and the signed message. *)
From Verif Require ProofToy ProofFast6.
From Verif Require Import Base ModelUtils ModelParams ModelCommons ModelCore ModelCoreFast ModelXmss ModelInPlace SpecRfc SpecParams SpecApi SpecComp SpecFast SpecSec SpecForge SpecInPlace
  ProofUtils ProofApi ProofHistory ProofMain ProofUi2 ProofForge2 ProofInPlace2 PropApi PropFast.
Local Existing Instance ex_env.

(** C66 (signing, reference core): true.  If the message stands anywhere in the output buffer,
    not overlapping the place where it belongs, signing gives what it gives with a separate
    copy of the message.  For every key contents and index. *)
Theorem C66_reference_signs_in_place_partial : forall E : Env, forall mt r sk sm smlen om m, In r (rows mt) -> firstn 4 sk = toByte (r_oid r) 4 ->
  sig_size r + length m <= length sm -> holds sm om m -> apart (sig_size r) om (length m) ->
  sign_in mt false sk sm smlen om (length m) = sign mt ref_core sk sm smlen m.
Proof. intros E mt r sk sm smlen om m Hr. exact (ref_in_place mt r Hr sk sm smlen om m). Qed.
Print Assumptions C66_reference_signs_in_place_partial.
(** e.g. with m = sm *)
Example C66_reference_applies : firstn 4 (ex_sk 5) = toByte (r_oid ex_row) 4 /\ sig_size ex_row + 3 <= length ([1; 2; 3]%N ++ repeat 0%N 2500) /\
  holds ([1; 2; 3]%N ++ repeat 0%N 2500) 0 [1; 2; 3]%N /\ apart (sig_size ex_row) 0 3.
Proof.
  split; [exact (proj1 (proj2 (proj1 (ex_sk_key 5%N (or_introl eq_refl)))))|]. split; [apply Nat.leb_le; vm_compute; reflexivity|].
  split; [split; [apply Nat.leb_le; vm_compute; reflexivity|reflexivity]|right; apply Nat.leb_le; vm_compute; reflexivity].
Qed.

(** C66 (signing, fast core): false.  The fast core reads the message a second time after
    the signature is written.  For every history of a generated key and every message standing
    where the signature goes (for instance m = sm), the call returns 0 and updates the key as
    usual, but the message part of the output is a piece [m'] of the signature; unless [m'] happens
    to be the message, the output opens only if the hash function is broken. *)
Theorem C66_refuted_fast_sign_in_place : forall E : Env, env_ok E -> forall mt r, In r (rows mt) -> forall rnd pk0 sk0 cs pk sk sk' os, (forall i, (rnd i < 256)%N) ->
  length pk0 = 4 + pk_size r -> length sk0 = 4 + fast_size r -> bytes_ok sk0 ->
  keypair mt fast_core pk0 sk0 (r_oid r) rnd = Ok (0%Z, pk, sk) -> (N.of_nat (length cs) + 1 < fast_limit r)%N -> Forall (call_ok r) cs ->
  sign_run mt fast_core sk cs = Ok (sk', os) ->
  forall sm smlen om m, sig_size r + length m <= length sm -> holds sm om m -> om + length m <= sig_size r -> bytes_ok m ->
  exists o oi, sign mt fast_core sk' sm smlen m = Ok o /\ so_rc o = 0%Z /\
    sign_in mt true sk' sm smlen om (length m) = Ok oi /\ so_rc oi = 0%Z /\ so_sk oi = so_sk o /\
    let given := firstn (sig_size r) (signed_message o) in
    let m' := firstn (length m) (skipn om given) in
    firstn (idx_size r) given = toByte (N.of_nat (length cs)) (idx_size r) /\ signed_message o = given ++ m /\ signed_message oi = given ++ m' /\
    (m' <> m -> forall c mbuf mlen oo, a_core c -> length (signed_message oi) <= length mbuf ->
       sign_open mt c mbuf mlen (signed_message oi) pk = Ok oo -> oo_rc oo = 0%Z ->
       let P := row_sp r in let seed := sk_field r 3 sk in let rt := sk_field r 2 sk in
       let released := map (fun o => (firstn (sig_size r) (signed_message o), skipn (sig_size r) (signed_message o))) (os ++ [o]) in
       let forged := verify_queries P seed rt given m' in
       hash_collision P seed (verify_queries P seed rt given m) forged \/ inverted P seed rt released given m forged).
Proof. exact (@fast_in_place). Qed.
Print Assumptions C66_refuted_fast_sign_in_place.
(** e.g. the message 9, 9 at the start of the buffer, after 900 signatures: what comes out is a
    signed message for the bytes 0, 0 (the beginning of the index) *)
Example C66_fast_applies : exists pk sk sk' os oi,
    keypair false fast_core (repeat 0%N 68) (repeat 0%N 1377) (r_oid ex_row) ex_rnd = Ok (0%Z, pk, sk) /\
    sign_run false fast_core sk (repeat ex_call 900) = Ok (sk', os) /\
    sign_in false true sk' ([9; 9]%N ++ repeat 0%N 2500) 0 0 2 = Ok oi /\ so_rc oi = 0%Z /\ skipn 2500 (signed_message oi) = [0; 0]%N.
Proof.
  destruct (C26_fast_xmss_is_reference ex_env ex_env_ok ex_row ex_rnd (repeat 0%N 68) (repeat 0%N 136) (repeat 0%N 68) (repeat 0%N 1377) (repeat ex_call 900)
    ex_row_in ex_rnd_bytes ex_pk_len ex_sk_len ex_pk_len ex_fast_len (ex_fast_bytes _)) as (pk & kr & kf & kr' & kf' & ors & ofs & _ & A2 & _ & _ & _ & A4 & _).
  { rewrite repeat_length. vm_compute. reflexivity. }
  { apply ex_calls_ok. }
  exists pk, kf, kf', ofs.
  destruct (C66_refuted_fast_sign_in_place ex_env ex_env_ok false ex_row ex_row_in ex_rnd (repeat 0%N 68) (repeat 0%N 1377) (repeat ex_call 900) pk kf kf' ofs
    ex_rnd_bytes ex_pk_len ex_fast_len (ex_fast_bytes _) A2) with (sm := ([9; 9]%N ++ repeat 0%N 2500)) (smlen := 0) (om := 0) (m := [9; 9]%N) as (o & oi & B1 & B2 & B3 & B4 & B5 & B6 & B9 & B7 & _).
  - rewrite repeat_length. vm_compute. reflexivity.
  - apply ex_calls_ok.
  - exact A4.
  - apply Nat.leb_le; vm_compute; reflexivity.
  - split; [apply Nat.leb_le; vm_compute; reflexivity|reflexivity].
  - apply Nat.leb_le; vm_compute; reflexivity.
  - repeat constructor.
  - exists oi. do 2 (split; [assumption|]). split; [exact B3|]. split; [exact B4|].
    cbn [skipn length] in B7. assert (B8 : firstn 2 (firstn (sig_size ex_row) (signed_message o)) = [0; 0]%N).
    { change 2 with (Nat.min 2 (idx_size ex_row)). rewrite <- firstn_firstn, B6, repeat_length. vm_compute. reflexivity. }
    rewrite B7, B8. assert (L : length (firstn (sig_size ex_row) (signed_message o)) = 2500); [|rewrite <- L at 1; apply ProofCore.skipn_app_len; reflexivity].
    pose proof (f_equal (@length N) B9) as Q. rewrite app_length, firstn_length in Q. cbn [length] in Q. rewrite firstn_length. change (sig_size ex_row) with 2500 in *. lia.
Qed.

(** C66 (opening): false.  Whatever a generated key has signed, opening the signed message with
    m = sm rejects it, unless the hash function is broken or the signature happens to end with
    the bytes that the message hash puts there. *)
Theorem C66_refuted_open_in_place : forall E : Env, env_ok E -> forall mt r, In r (rows mt) ->
  forall core lim size, signer r core lim size -> forall rnd pk0 sk0 cs pk sk sk' os j x o c mlen, (forall i, (rnd i < 256)%N) ->
  length pk0 = 4 + pk_size r -> length sk0 = 4 + size -> bytes_ok sk0 ->
  keypair mt core pk0 sk0 (r_oid r) rnd = Ok (0%Z, pk, sk) -> (N.of_nat (length cs) < lim)%N -> Forall (call_ok r) cs ->
  sign_run mt core sk cs = Ok (sk', os) -> nth_error cs j = Some x -> nth_error os j = Some o -> bytes_ok (c_m x) -> a_core c ->
  let P := row_sp r in let sm := signed_message o in
  let seed := sk_field r 3 sk in let rt := sk_field r 2 sk in
  let sm' := hash_prefix_over r rt sm in
  let released := map (fun o => (firstn (sig_size r) (signed_message o), skipn (sig_size r) (signed_message o))) os in
  let forged := verify_queries P seed rt (firstn (sig_size r) sm') (c_m x) in
  let given := firstn (sig_size r) sm in
  sm' <> sm ->
  (exists oo, sign_open_in mt c sm mlen (length sm) pk = Ok oo /\ oo_rc oo = (-1)%Z /\ oo_mlen oo = 0) \/
  hash_collision P seed (verify_queries P seed rt given (c_m x)) forged \/ inverted P seed rt released given (c_m x) forged.
Proof. exact (@open_in_place). Qed.
Print Assumptions C66_refuted_open_in_place.
(** e.g. signature 3 of 5 *)
Lemma ex_sig_end a b c d i m : length a = 32 -> length b = 32 -> length d = 32 -> bytes_ok a -> exists pre, mt_sign (row_sp ex_row) a b c d i m = pre ++ a ++ a ++ a ++ a.
Proof.
  intros La Lb Ld Ba.
  unfold mt_sign. cbv zeta. change (sp_d (row_sp ex_row)) with 1. cbn [seq map concat]. rewrite app_nil_r. unfold layer_sig, auth_path. change (sp_th (row_sp ex_row)) with 10.
  rewrite (seq_app 6 4), map_app, concat_app. cbn [seq Nat.add map concat]. rewrite app_nil_r. rewrite !(ProofToy.toy_node (fun _ => 0%N) ex_row eq_refl eq_refl a d La Ba). rewrite !app_nil_r. eexists. rewrite !app_assoc. reflexivity.
Qed.
Example C66_open_applies : exists pk sk sk' os o,
    keypair false ref_core (repeat 0%N 68) (repeat 0%N 136) (r_oid ex_row) ex_rnd = Ok (0%Z, pk, sk) /\
    sign_run false ref_core sk (repeat ex_call 5) = Ok (sk', os) /\ nth_error os 3 = Some o /\
    hash_prefix_over ex_row (sk_field ex_row 2 sk) (signed_message o) <> signed_message o.
Proof.
  destruct (keypair_exact ex_env_ok false ex_row (repeat 0%N 68) (repeat 0%N 136) ex_rnd ex_row_in ex_rnd_bytes ex_pk_len ex_sk_len) as (a & b & ct & d & Hf & Hct & _ & Hkp).
  destruct (signer_run ex_env_ok false ex_row ex_row_in ref_core _ _ (signer_ref ex_row) ex_rnd (repeat 0%N 68) (repeat 0%N 136) (repeat ex_call 5) _ _
    ex_rnd_bytes ex_pk_len ex_sk_len (ProofToy.zeros_ok 136) Hkp) as (a1 & b1 & c1 & d1 & e1 & e2 & os & Hf1 & _ & _ & Es & Hrun & Lo & Hnth).
  { vm_compute. reflexivity. }
  { apply ex_calls_ok. }
  destruct (Hnth 3 ex_call eq_refl) as (o & Ho & _ & Hlen & Hsm). exists (public_key ex_row ct d). eexists _, _, os, o. split; [exact Hkp|]. split; [exact Hrun|]. split; [exact Ho|].
  set (rt := sk_field _ _ _). assert (Lrt : length rt = 32). { unfold rt. rewrite Es. pose proof (ProofFast6.fsk_parts ex_row 0 a1 b1 c1 d1 e1 Hf1) as (_ & _ & _ & _ & _ & Q3 & _). rewrite Q3. destruct Hf1 as [[_ [_ [L _]]] _]. exact L. }
  assert (Esm : signed_message o = mt_sign (row_sp ex_row) a1 b1 c1 d1 (N.of_nat 3) [1; 2; 3]%N ++ [1; 2; 3]%N).
  { unfold signed_message. rewrite Hlen, Hsm, app_assoc. apply ProofCore.firstn_app_len. rewrite app_length, (mt_sign_len ex_env_ok false ex_row ex_row_in). reflexivity. }
  pose proof (mt_sign_len ex_env_ok false ex_row ex_row_in a1 b1 c1 d1 (N.of_nat 3) [1; 2; 3]%N) as Lsg. change (sig_size ex_row) with 2500 in Lsg.
  assert (Hix : sm_index ex_row (signed_message o) = 3%N).
  { unfold sm_index. rewrite Esm. change (idx_size ex_row) with 4. unfold mt_sign. cbv zeta. rewrite <- !app_assoc. rewrite ProofCore.firstn_app_len by (now rewrite toByte_length). reflexivity. }
  destruct Hf1 as [[La [Lb [Lc Ld]]] [Ba [Bb [Bc Bd]]]].
  change (r_n ex_row) with 32 in La, Lb, Lc, Ld.
  destruct (ex_sig_end a1 b1 c1 d1 (N.of_nat 3) [1; 2; 3]%N La Lb Ld Ba) as [pre Ep]. rewrite Ep in Esm, Lsg. rewrite !app_length, La in Lsg.
  intros Hx. unfold hash_prefix_over in Hx. rewrite Hix in Hx. change (sig_size ex_row) with 2500 in Hx. change (sp_pad (row_sp ex_row)) with 32 in Hx. change (r_n ex_row) with 32 in Hx. change (idx_size ex_row) with 4 in Hx.
  set (sm := signed_message o) in *. assert (Lsm : length sm = 2503) by (rewrite Esm, !app_length, La; cbn [length]; lia).
  assert (X1 : firstn 32 (skipn 2468 sm) = a1).
  { replace sm with ((pre ++ a1 ++ a1 ++ a1) ++ a1 ++ [1; 2; 3]%N) by (rewrite Esm, <- !app_assoc; reflexivity). rewrite ProofCore.skipn_app_len by (rewrite !app_length, La; clear - Lsg; lia). now apply ProofCore.firstn_app_len. }
  assert (X0 : firstn 32 (skipn 2372 sm) = a1).
  { rewrite Esm, <- !app_assoc. rewrite ProofCore.skipn_app_len by lia. now apply ProofCore.firstn_app_len. }
  rewrite <- Hx in X1, X0.
  assert (X2 : firstn 32 (skipn 2468 (firstn (2500 - (32 + 3 * 32)) sm ++ (toByte 2 32 ++ firstn 32 (skipn 4 sm) ++ rt ++ toByte 3 32) ++ skipn 2500 sm)) = toByte 3 32).
  { generalize (skipn 2500 sm). intros tl. replace (firstn (2500 - (32 + 3 * 32)) sm ++ (toByte 2 32 ++ firstn 32 (skipn 4 sm) ++ rt ++ toByte 3 32) ++ tl) with ((firstn (2500 - (32 + 3 * 32)) sm ++ toByte 2 32 ++ firstn 32 (skipn 4 sm) ++ rt) ++ toByte 3 32 ++ tl) by (rewrite <- !app_assoc; reflexivity). rewrite ProofCore.skipn_app_len; [now apply ProofCore.firstn_app_len|].
    rewrite !app_length, !firstn_length, skipn_length, toByte_length, Lrt. lia. }
  assert (X3 : firstn 32 (skipn 2372 (firstn (2500 - (32 + 3 * 32)) sm ++ (toByte 2 32 ++ firstn 32 (skipn 4 sm) ++ rt ++ toByte 3 32) ++ skipn 2500 sm)) = toByte 2 32).
  { rewrite <- !app_assoc. rewrite ProofCore.skipn_app_len; [now apply ProofCore.firstn_app_len|]. rewrite firstn_length. lia. }
  rewrite X2 in X1. rewrite X3 in X0. rewrite <- X1 in X0. discriminate X0.
Qed.

(** An OID in no parameter set (or a key shorter than the OID, or one whose first byte makes
    reading it undefined): in place or not, sign and open do the same. *)
Theorem C66_unknown_oid_in_place : forall (E : Env) mt key, bytes_ok (firstn 4 key) -> (forall r, In r (rows mt) -> firstn 4 key <> toByte (r_oid r) 4) ->
  (forall (fast : bool) sm smlen om m, sign_in mt fast key sm smlen om (length m) = sign mt (if fast then fast_core else ref_core) key sm smlen m) /\
  (forall c buf mlen smlen sm, sign_open_in mt c buf mlen smlen key = sign_open mt c buf mlen sm key).
Proof.
  intros E mt key Hb Hn.
  assert (Ho : (exists oid, oid_of_bytes key = Ok oid /\ ~ In oid (map r_oid (rows mt))) \/ oid_of_bytes key = UB \/ oid_of_bytes key = NoFuel).
  { destruct (oid_of_bytes key) as [oid| |] eqn:Eo; [|now right; left|now right; right]. left. exists oid. split; [reflexivity|].
    assert (H4 : 4 <= length key). { do 4 (destruct key as [|? key]; [discriminate Eo|]). cbn. lia. }
    destruct (N.ltb_spec (nth 0 key 0%N) 128) as [H0|H0]; [|rewrite ProofApi.oid_of_bytes_ub in Eo by assumption; discriminate].
    rewrite ProofApi.oid_of_bytes_spec in Eo by assumption. injection Eo as <-.
    intros Hin. apply in_map_iff in Hin as (r & Hr1 & Hr). apply (Hn r Hr). rewrite Hr1.
    assert (Hl : length (firstn 4 key) = 4) by (rewrite firstn_length; lia). pose proof (ProofUtils.toByte_os2ip (firstn 4 key) Hb) as Ht. rewrite Hl in Ht. now symmetry. }
  assert (Hp : (mt = true -> forall oid, ~ In oid (map r_oid (rows mt)) -> forall skb, xmssmt_parse_oid skb uninit_params oid = Ok None) /\
               (mt = false -> forall oid, ~ In oid (map r_oid (rows mt)) -> forall skb, xmss_parse_oid skb uninit_params oid = Ok None)).
  { split; intros -> oid Hi skb; [exact (ProofParams.parse_reject true skb _ oid Hi)|exact (ProofParams.parse_reject false skb _ oid Hi)]. }
  destruct Hp as [Ht Hf].
  assert (W : forall parse skb sg1 sg2 sm smlen m1 m2, (forall oid, ~ In oid (map r_oid (rows mt)) -> forall skb, parse skb uninit_params oid = Ok None) ->
    sign_wrapper parse skb sg1 key sm smlen m1 = sign_wrapper parse skb sg2 key sm smlen m2).
  { clear Ht Hf. intros parse skb sg1 sg2 sm smlen m1 m2 Hp. unfold sign_wrapper.
    destruct Ho as [(oid & Eo & Hi)|[Eo|Eo]]; rewrite Eo; cbn [bind]; [|reflexivity..]. rewrite (Hp oid Hi). reflexivity. }
  split.
  - intros fast sm smlen om m. unfold sign_in, sign, xmss_sign, xmssmt_sign. destruct mt; [specialize (Ht eq_refl)|specialize (Hf eq_refl)]; cbv beta iota; destruct fast; cbv beta iota; cbn [ref_core fast_core c_sk_bytes]; apply W; assumption.
  - intros c buf mlen smlen sm. unfold sign_open_in, sign_open, xmss_sign_open, xmssmt_sign_open. destruct mt; [specialize (Ht eq_refl)|specialize (Hf eq_refl)]; cbv beta iota; unfold open_wrapper;
      (destruct Ho as [(oid & Eo & Hi)|[Eo|Eo]]; rewrite Eo; cbn [bind]; [|reflexivity..]); [rewrite (Ht oid Hi)|rewrite (Hf oid Hi)]; reflexivity.
Qed.
Print Assumptions C66_unknown_oid_in_place.
Example C66_unknown_oid_applies : bytes_ok (toByte 22 4) /\ forall r, In r (rows false) -> firstn 4 (toByte 22 4) <> toByte (r_oid r) 4.
Proof.
  split; [apply toByte_ok|]. change (firstn 4 (toByte 22 4)) with (toByte 22 4).
  intros r Hr. assert (Hx : forallb (fun r => (r_oid r <? 22)%N) (rows false) = true) by (vm_compute; reflexivity).
  rewrite forallb_forall in Hx. specialize (Hx r Hr). apply N.ltb_lt in Hx. intros He. apply (f_equal (os2ip)) in He.
  rewrite !os2ip_toByte in He. change (256 ^ N.of_nat 4)%N with 4294967296%N in He. rewrite !N.mod_small in He by lia. lia.
Qed.
