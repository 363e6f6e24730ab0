(** Refutations, evaluated in the witness environment of ProofToy. *)
From Coq Require Import String.
From Verif Require Import Base Lib ModelUtils ModelParams ModelHash ModelWots ModelCommons ModelCore ModelCoreFast ModelXmss
  SpecRfc SpecParams SpecApi ProofUtils ProofHash ProofWots ProofCommons ProofTree ProofCore ProofParams ProofApi ProofHistory ProofToy ProofMain ProofMain2.

Definition zero_env : Env := toy_env (fun _ => 0%N).
Lemma zero_env_ok : env_ok zero_env. Proof. apply toy_env_ok. Qed.

Section Toy.
Local Existing Instance zero_env.
Variables (mt : bool) (r : row).
Hypothesis Hr : In r (rows mt).
Hypothesis Hfn : r_fn r = SHA2.
Hypothesis Hn : r_n r = 32.
Notation z := (repeat 0%N 32).
Notation P := (row_sp r).

Lemma row_d_pos : 1 <= r_d r.
Proof. pose proof (po_d _ (p_ok mt r Hr)) as H. now rewrite row_dd in H. Qed.

(** a signature made of copies of one value verifies exactly under that value as root *)
Lemma toy_verify v seed ixb R x m : length v = 32 -> bytes_ok v -> length ixb = idx_size r -> length R = 32 ->
  x = concat (repeat v (r_d r * (sp_len P + sp_th P))) ->
  forall rt, mt_verify P rt seed (ixb ++ R ++ x) m = if list_eq_dec N.eq_dec v rt then true else false.
Proof.
  intros Hv Bv Hi HR -> rt. unfold mt_verify. cbv zeta.
  assert (Hs : skipn (sp_ib P + sp_n P) (ixb ++ R ++ concat (repeat v (r_d r * (sp_len P + sp_th P)))) = concat (repeat v (r_d r * (sp_len P + sp_th P)))).
  { rewrite app_assoc. apply skipn_app_len. rewrite app_length, Hi, HR. change (sp_n P) with (r_n r). rewrite Hn. reflexivity. }
  rewrite Hs. change (sp_d P) with (r_d r).
  rewrite (toy_mt_climb (fun _ => 0%N) r Hfn Hn v seed Hv Bv) by apply row_d_pos. reflexivity.
Qed.

(** C02 *)
Lemma last_signature_fails rnd pk0 sk0 cs m sm smlen mbuf mlen : (forall i, (rnd i < 256)%N) -> map rnd (seq 0 32) <> z ->
  length pk0 = 4 + pk_size r -> length sk0 = 4 + sk_size r ->
  (N.of_nat (length cs) + 1 = 2 ^ N.of_nat (r_h r))%N -> Forall (call_ok r) cs ->
  bytes_ok m -> sig_size r + length m <= length sm -> sig_size r + length m <= length mbuf ->
  exists pk sk sk' os o oo,
    keypair mt ref_core pk0 sk0 (r_oid r) rnd = Ok (0%Z, pk, sk) /\
    sign_run mt ref_core sk cs = Ok (sk', os) /\
    sign mt ref_core sk' sm smlen m = Ok o /\ so_rc o = 0%Z /\
    sign_open mt ref_core mbuf mlen (signed_message o) pk = Ok oo /\ oo_rc oo = (-1)%Z.
Proof.
  intros Hb Hne Hpk Hsk Hi Hok Bm Lsm Lm. pose proof zero_env_ok as HE.
  destruct (keypair_exact HE mt r pk0 sk0 rnd Hr Hb Hpk Hsk) as [a [b [ct [d [Hf [Hct [Hmat Hkp]]]]]]].
  destruct (run_live HE mt r a b ct d Hr Hf cs 0%N ltac:(lia) Hok) as [os [Hrun _]]. rewrite N.add_0_l in Hrun.
  set (i := N.of_nat (length cs)) in *.
  assert (Ha : a = map rnd (seq 0 32)) by (unfold key_material in Hmat; rewrite Hn in Hmat; congruence).
  assert (Hx : sk_index r (secret_key r i a b ct d) = i).
  { rewrite secret_key_index. apply N.mod_small. pose proof (pow_h_le mt r Hr). lia. }
  pose proof (sign_last_row HE mt r Hr (secret_key r i a b ct d) (secret_key_ok r i a b ct d Hf) sm smlen m) as Hs.
  rewrite Hx in Hs. specialize (Hs Hi Lsm). cbv zeta in Hs.
  pose proof Hf as [[La [Lb [Lc Ld]]] [Ba [Bb [Bc Bd]]]].
  rewrite Hn in *.
  set (R := PRF P z (toByte i 32)) in *.
  pose proof (toy_layers (fun _ => 0%N) r Hfn Hn z z (repeat_length _ _) (zeros_ok 32) (H_msg P R z i m) i) as HL.
  change (sp_d (row_sp r)) with (r_d r) in HL. change (@row_sp (toy_env (fun _ : nat => 0%N)) r) with P in HL. rewrite HL in Hs.
  set (x := concat (repeat z (r_d r * (sp_len P + sp_th P)))) in *.
  assert (HR : length R = 32).
  { unfold R. rewrite <- (sp_of_row r (sk_ref r)), (PRF_length _ _ (p_hash HE mt r Hr)). now rewrite row_n. }
  set (sg := repeat 255%N (idx_size r) ++ R ++ x).
  assert (Hs' : sign mt ref_core (secret_key r i a b ct d) sm smlen m =
     Ok (mkSign 0 (secret_key r (2 ^ N.of_nat (r_h r)) z z z z) ((sg ++ m) ++ skipn (sig_size r + length m) sm) (sig_size r + length m))).
  { rewrite Hs. unfold sg. rewrite <- !app_assoc. reflexivity. }
  assert (Lx : length x = r_d r * (sp_len P + sp_th P) * 32) by (apply concat_repeat_length, repeat_length).
  assert (Lsg : length sg = sig_size r).
  { unfold sg. rewrite !app_length, repeat_length, HR, Lx. unfold sig_size, sp_sig_bytes. change (sp_n P) with (r_n r). rewrite Hn. change (sp_d P) with (r_d r). unfold idx_size. lia. }
  assert (Bsg : bytes_ok sg).
  { unfold sg. rewrite !bytes_ok_app. split; [apply Forall_forall; intros y Hy; apply repeat_spec in Hy; subst; reflexivity|].
    split; [unfold R; apply (Hf_bytes (row_params r (sk_ref r)) _ (p_hash HE mt r Hr))|].
    apply bytes_ok_concat, Forall_forall. intros y Hy. apply repeat_spec in Hy. subst. apply zeros_ok. }
  assert (Hkey : key_of r (pk_size r) (public_key r ct d)).
  { unfold public_key, pk_size. split; [rewrite !app_length, toByte_length; lia|]. split; [apply firstn_app_len; now rewrite toByte_length|].
    rewrite !bytes_ok_app. repeat split; try assumption. apply toByte_ok. }
  destruct (open_decides HE mt r ref_core mbuf mlen (sg ++ m) (public_key r ct d) Hr (or_introl eq_refl) Hkey) as [oo [Hoo [_ [_ [Hrej _]]]]].
  - rewrite app_length. lia.
  - rewrite bytes_ok_app. auto.
  - rewrite app_length. lia.
  - rewrite (skipn_app_len sg m), (firstn_app_len sg m) in Hrej by lia.
    assert (Hrt : firstn (r_n r) (skipn 4 (public_key r ct d)) = a).
    { unfold public_key. rewrite skipn_app_len by (now rewrite toByte_length). rewrite firstn_app_len by lia.
      rewrite Hct. apply (toy_root (fun _ => 0%N) r Hfn Hn a d La Ba). }
    rewrite Hrt in Hrej. unfold sg in Hrej at 1. rewrite (toy_verify z) in Hrej; [|apply repeat_length|apply zeros_ok|apply repeat_length|exact HR|reflexivity].
    destruct (list_eq_dec N.eq_dec z a) as [He|_]; [congruence|]. destruct (Hrej eq_refl) as [A1 _].
    exists (public_key r ct d), (secret_key r 0 a b ct d), (secret_key r i a b ct d), os,
      (mkSign 0 (secret_key r (2 ^ N.of_nat (r_h r)) z z z z) ((sg ++ m) ++ skipn (sig_size r + length m) sm) (sig_size r + length m)), oo.
    unfold signed_message. cbn [so_smlen so_sm so_rc]. rewrite (firstn_app_len (sg ++ m)) by (rewrite app_length; lia).
    repeat split; auto.
Qed.

(** C43: an index of 2^h accepted under an honestly generated public key *)
Lemma big_index_accepted rnd pk0 sk0 idx m mbuf mlen : (forall i, (rnd i < 256)%N) -> 
  length pk0 = 4 + pk_size r -> length sk0 = 4 + sk_size r ->
  (2 ^ N.of_nat (r_h r) <= idx < 256 ^ N.of_nat (idx_size r))%N ->
  bytes_ok m -> sig_size r + length m <= length mbuf ->
  exists pk sk sm oo, keypair mt ref_core pk0 sk0 (r_oid r) rnd = Ok (0%Z, pk, sk) /\
    sm_index r sm = idx /\ sign_open mt ref_core mbuf mlen sm pk = Ok oo /\ oo_rc oo = 0%Z.
Proof.
  intros Hb Hpk Hsk Hi Bm Lm. pose proof zero_env_ok as HE.
  destruct (keypair_exact HE mt r pk0 sk0 rnd Hr Hb Hpk Hsk) as [a [b [ct [d [Hf [Hct [Hmat Hkp]]]]]]].
  pose proof Hf as [[La [Lb [Lc Ld]]] [Ba [Bb [Bc Bd]]]]. rewrite Hn in *.
  set (x := concat (repeat a (r_d r * (sp_len P + sp_th P)))).
  set (sg := toByte idx (idx_size r) ++ z ++ x).
  assert (Lx : length x = r_d r * (sp_len P + sp_th P) * 32) by (now apply concat_repeat_length).
  assert (Lsg : length sg = sig_size r).
  { unfold sg. rewrite !app_length, repeat_length, toByte_length, Lx. unfold sig_size, sp_sig_bytes. change (sp_n P) with (r_n r). rewrite Hn. change (sp_d P) with (r_d r). unfold idx_size. lia. }
  assert (Bsg : bytes_ok sg).
  { unfold sg. rewrite !bytes_ok_app. split; [apply toByte_ok|]. split; [apply zeros_ok|].
    apply bytes_ok_concat, Forall_forall. intros y Hy. apply repeat_spec in Hy. now subst. }
  assert (Hkey : key_of r (pk_size r) (public_key r ct d)).
  { unfold public_key, pk_size. split; [rewrite !app_length, toByte_length; lia|]. split; [apply firstn_app_len; now rewrite toByte_length|].
    rewrite !bytes_ok_app. repeat split; try assumption. apply toByte_ok. }
  destruct (open_decides HE mt r ref_core mbuf mlen (sg ++ m) (public_key r ct d) Hr (or_introl eq_refl) Hkey) as [oo [Hoo [_ [Hacc _]]]].
  - rewrite app_length. lia.
  - rewrite bytes_ok_app. auto.
  - rewrite app_length. lia.
  - rewrite (skipn_app_len sg m), (firstn_app_len sg m) in Hacc by lia.
    assert (Hrt : firstn (r_n r) (skipn 4 (public_key r ct d)) = a).
    { unfold public_key. rewrite skipn_app_len by (now rewrite toByte_length). rewrite firstn_app_len by lia.
      rewrite Hct. apply (toy_root (fun _ => 0%N) r Hfn Hn a d La Ba). }
    rewrite Hrt in Hacc. unfold sg in Hacc at 1.
    rewrite (toy_verify a) in Hacc; [|exact La|exact Ba|apply toByte_length|apply repeat_length|reflexivity].
    destruct (list_eq_dec N.eq_dec a a) as [_|Hx]; [|congruence]. destruct (Hacc eq_refl) as [A1 _].
    exists (public_key r ct d), (secret_key r 0 a b ct d), (sg ++ m), oo. split; [exact Hkp|]. split; [|split; [exact Hoo|exact A1]].
    unfold sm_index, sg. rewrite <- app_assoc, firstn_app_len by (now rewrite toByte_length). rewrite os2ip_toByte. apply N.mod_small. lia.
Qed.

(** C21: a rejected message is left in the buffer *)
Lemma reject_somewhere pk m : key_of r (pk_size r) pk -> firstn 32 (skipn 4 pk) <> z -> bytes_ok m ->
  let sm := repeat 0%N (sig_size r) ++ m in
  mt_verify P (firstn 32 (skipn 4 pk)) (skipn (4 + r_n r) pk) (firstn (sig_size r) sm) (skipn (sig_size r) sm) = false.
Proof.
  intros Hk Hz Bm. cbv zeta. rewrite firstn_app_len, skipn_app_len by (now rewrite repeat_length).
  assert (Hsplit : repeat 0%N (sig_size r) = repeat 0%N (idx_size r) ++ z ++ concat (repeat z (r_d r * (sp_len P + sp_th P)))).
  { assert (Hc : forall k, concat (repeat z k) = repeat 0%N (k * 32)).
    { induction k as [|k IH]; [reflexivity|]. cbn [concat Nat.mul]. change (repeat z (S k)) with (z :: repeat z k). cbn [concat]. rewrite IH, <- repeat_app. reflexivity. }
    rewrite Hc, <- !repeat_app. f_equal. unfold sig_size, sp_sig_bytes. change (sp_n P) with (r_n r). rewrite Hn. change (sp_d P) with (r_d r). unfold idx_size. lia. }
  rewrite Hsplit. rewrite (toy_verify z); [|apply repeat_length|apply zeros_ok|apply repeat_length|apply repeat_length|reflexivity].
  destruct (list_eq_dec N.eq_dec z _) as [He|_]; [congruence|reflexivity].
Qed.
End Toy.
