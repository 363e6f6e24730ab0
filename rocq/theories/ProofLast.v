(** The signature with the last index, for every hash function and either core. *)
From Verif Require Import Base Lib ModelUtils ModelParams ModelHash ModelWots ModelCommons ModelCore ModelCoreFast ModelXmss SpecRfc SpecParams SpecApi SpecComp SpecSec SpecForge SpecFast SpecLast
  ProofUtils ProofHash ProofWots ProofCommons ProofCore ProofParams ProofApi ProofHistory ProofMain ProofMain2 ProofUi2 ProofFast1 ProofFast3 ProofFast4 ProofFast5 ProofFast6 ProofFast7 ProofMt7 ProofSec ProofForge ProofForge2 ProofUi5 ProofToy ProofToy2 ProofMain3 PropFast.

Section Last.
Context {E : Env}.
Hypothesis HE : env_ok E.
Variables (mt : bool) (r : row).
Hypothesis Hr : In r (rows mt).
Notation P := (row_sp r).
Notation ib := (idx_size r).
Notation n := (r_n r).
Notation z := (repeat 0%N n).
Notation top := (2 ^ N.of_nat (r_h r))%N.

Lemma live_run core lim size St : live mt r core lim size St -> forall a b ct d, fields r a b ct d -> forall cs i sk, St a b ct d i sk ->
  (i + N.of_nat (length cs) < lim)%N -> Forall (call_ok r) cs ->
  exists sk' os, St a b ct d (i + N.of_nat (length cs))%N sk' /\ sign_run mt core sk cs = Ok (sk', os) /\ length os = length cs /\
    forall k x, nth_error cs k = Some x -> exists o, nth_error os k = Some o /\ so_rc o = 0%Z /\ so_smlen o = sig_size r + length (c_m x) /\
      so_sm o = mt_sign P a b ct d (i + N.of_nat k) (c_m x) ++ c_m x ++ skipn (sig_size r + length (c_m x)) (c_sm x).
Proof.
  intros HL a b ct d Hf. induction cs as [|x cs IH]; intros i sk HS Hn Hok.
  - exists sk, []. rewrite N.add_0_r. split; [exact HS|]. split; [reflexivity|]. split; [reflexivity|]. intros [|k] x Hx; discriminate.
  - inversion Hok as [|? ? Hx Hok']; subst. cbn [length] in Hn. rewrite Nat2N.inj_succ in Hn.
    destruct (live_step _ _ _ _ _ _ HL a b ct d i sk (c_sm x) (c_smlen x) (c_m x) Hf HS ltac:(lia) Hx) as (sk1 & HS1 & H1).
    destruct (IH (i + 1)%N sk1 HS1 ltac:(lia) Hok') as (sk' & os & HS' & Hrun & Hl & Hnth).
    replace (i + 1 + N.of_nat (length cs))%N with (i + N.of_nat (length (x :: cs)))%N in HS' by (cbn [length]; lia).
    eexists sk', (_ :: os). split; [exact HS'|]. split; [cbn [sign_run]; rewrite H1, bind_ok; cbn [so_sk]; rewrite Hrun, bind_ok; reflexivity|].
    split; [cbn [length]; now rewrite Hl|]. intros [|k] y Hy; cbn [nth_error] in *.
    + injection Hy as <-. eexists. split; [reflexivity|]. rewrite N.add_0_r. split; [reflexivity|]. split; reflexivity.
    + destruct (Hnth k y Hy) as (o & Ho & R1 & R2 & R3). exists o. split; [exact Ho|]. split; [exact R1|]. split; [exact R2|].
      replace (i + N.of_nat (S k))%N with (i + 1 + N.of_nat k)%N by lia. exact R3.
Qed.

Lemma zeros_bytes k : bytes_ok (repeat 0%N k).
Proof. apply Forall_forall. intros y Hy. apply repeat_spec in Hy. subst. reflexivity. Qed.

(** a wiped key *)
Definition dead (size : nat) (i : N) (sk : bytes) : Prop :=
  exists ext, sk = secret_key r i z z z z ++ ext /\ (size = sk_size r /\ ext = [] \/ size = fast_size r /\ ser_image (row_params r (sk_fast r)) ext).
Lemma dead_step core lim size i sk sm smlen m : signer r core lim size -> dead size i sk -> (top <= i < 256 ^ N.of_nat ib)%N -> sig_size r + length m <= length sm ->
  let sk' := secret_key r (256 ^ N.of_nat ib - 1) z z z z ++ repeat 0%N (size - sk_size r) in
  exists sm' smlen', sign mt core sk sm smlen m = Ok (mkSign (-2) sk' sm' smlen') /\ length sm' = length sm /\ dead size (256 ^ N.of_nat ib - 1) sk'.
Proof.
  intros Hs (ext & -> & Hx) Hi Hm sk'. assert (Lz : length z = n) by apply repeat_length. destruct Hs.
  - assert (Ee : ext = []). { destruct Hx as [[_ Hx]|[Hx _]]; [exact Hx|]. exfalso. symmetry in Hx. revert Hx. apply (ProofUi4.fast_bigger mt r Hr). }
    subst ext. rewrite app_nil_r. pose proof (step_dead mt r Hr i (mkCall m sm smlen) Hi Hm) as H1. cbv zeta in H1. cbn [c_sm c_smlen c_m] in H1.
    eexists _, _. split; [rewrite H1; unfold sk'; rewrite Nat.sub_diag; cbn [repeat]; rewrite app_nil_r; reflexivity|]. split.
    + rewrite !app_length, firstn_length, skipn_length. lia.
    + exists []. unfold sk'. rewrite Nat.sub_diag. split; [reflexivity|left; split; reflexivity].
  - assert (Hi' : ser_image (row_params r (sk_fast r)) ext). { destruct Hx as [[Hx _]|[_ Hx]]; [|exact Hx]. exfalso. revert Hx. apply (ProofUi4.fast_bigger mt r Hr). }
    pose proof (fdead mt r Hr i z z z z ext sm smlen m Lz Lz Lz Lz Hi' Hi) as H1.
    assert (Hsz : fast_size r - sk_size r = ser_bytes (row_params r (sk_fast r))) by (rewrite (fast_size_eq mt r Hr); unfold sk_size; lia).
    exists sm, smlen. unfold sk'. rewrite Hsz. split; [exact H1|]. split; [reflexivity|].
    eexists. split; [reflexivity|]. right. split; [reflexivity|]. apply (ser_bytes_ok mt r Hr); [apply repeat_length|apply zeros_bytes].
Qed.

(** the last signed message: its index field and its randomiser *)
Lemma last_shape core lim size : signer r core lim size -> lim = top -> forall St, live mt r core lim size St ->
  forall a b ct d sk sm smlen m, fields r a b ct d -> St a b ct d (top - 1)%N sk -> sig_size r + length m <= length sm ->
  exists sk2 ixb tail, let sg := ixb ++ PRF P z (toByte (top - 1) 32) ++ tail in
    sign mt core sk sm smlen m = Ok (mkSign 0 sk2 (sg ++ m ++ skipn (sig_size r + length m) sm) (sig_size r + length m)) /\
    length ixb = ib /\ length sg = sig_size r /\ bytes_ok sg /\ (ixb = toByte (top - 1) ib \/ ixb = repeat 255%N ib) /\
    last_sig r m core sg /\ dead size top sk2.
Proof.
  intros Hs Hlim St HL a b ct d sk sm smlen m Hf HS Hm. pose proof (pow_h_le mt r Hr) as Hpow. pose proof (ProofTree.pow2_pos (r_h r)) as Hpos.
  pose proof Hf as [[La [Lb [Lc Ld]]] _].
  assert (Lz : length z = n) by apply repeat_length.
  destruct Hs.
  - destruct (live_shape _ _ _ _ _ _ HL a b ct d _ sk Hf HS) as (Lsk & ext & Esk). rewrite Esk, app_length, (secret_key_length r _ a b ct d Hf) in Lsk.
    assert (ext = []) by (destruct ext; [reflexivity|cbn [length] in Lsk; lia]). subst ext. rewrite app_nil_r in Esk. subst sk.
    assert (Hidx : sk_index r (secret_key r (top - 1) a b ct d) = (top - 1)%N) by (rewrite secret_key_index; apply N.mod_small; lia).
    pose proof (sign_last_row HE mt r Hr _ (secret_key_ok r (top - 1) a b ct d Hf) sm smlen m) as H1. rewrite Hidx in H1. specialize (H1 ltac:(lia) Hm). cbv zeta in H1.
    pose proof (mt_sign_len HE mt r Hr z z z z (top - 1) m) as L1. pose proof (mt_sign_bytes HE mt r Hr z z z z (top - 1) m) as B1.
    unfold mt_sign in L1, B1. change (sp_d P) with (r_d r) in L1, B1. change (sp_ib P) with ib in L1, B1. change (sp_n P) with n in L1, B1.
    match type of H1 with _ = Ok (mkSign 0 ?s (?f ++ ?R ++ ?C ++ ?t) _) => exists s, f, C end. cbv zeta.
    split; [rewrite H1; rewrite <- !app_assoc; reflexivity|]. split; [apply repeat_length|].
    split; [rewrite !app_length, repeat_length; rewrite !app_length, toByte_length in L1; exact L1|].
    split; [rewrite !bytes_ok_app in *; destruct B1 as (_ & B2 & B3); split; [apply Forall_forall; intros y Hy; apply repeat_spec in Hy; subst; reflexivity|split; assumption]|].
    split; [right; reflexivity|]. split.
    { pose proof (last_ref r m) as HL0. cbv zeta in HL0. unfold mt_sign in HL0. rewrite skipn_app_len in HL0 by (symmetry; apply toByte_length). exact HL0. }
    exists []. rewrite app_nil_r. split; [reflexivity|left; split; reflexivity].
  - destruct (live_ser _ _ _ _ _ _ HL a b ct d _ sk Hf HS eq_refl) as (ext & -> & Himg).
    destruct (flast HE mt r Hr a b ct d ext sm smlen m La Lb Lc Ld Himg Hm) as (ext' & Himg' & H1).
    eexists _, (toByte (top - 1) ib), (concat (wots_sig P z 0 (tree_of P (top - 1) 0) (leaf_of P (top - 1) 0) z (H_msg P (PRF P z (toByte (top - 1) 32)) z (top - 1) m)) ++
      repeat 0%N (sp_th P * n + (r_d r - 1) * (sp_len P * n + sp_th P * n))). cbv zeta.
    split; [exact H1|]. split; [apply toByte_length|].
    split.
    { pose proof (fp_hash HE mt r Hr) as HH. pose proof (fp_ok mt r Hr) as Hp.
      rewrite !app_length, repeat_length, toByte_length, <- !(sp_of_row r (sk_fast r)), (PRF_length _ _ HH).
      rewrite (chunked_length (p_n (row_params r (sk_fast r)))) by apply (wots_sig_chunked _ _ HH). rewrite wots_sig_length by exact Hp.
      rewrite (row_n' r), (fp_len r), !(sp_of_row r (sk_fast r)). unfold sig_size, sp_sig_bytes. change (sp_n P) with n. change (sp_d P) with (r_d r). unfold idx_size.
      pose proof (fp_d mt r Hr) as Hd. rewrite row_d' in Hd. set (L := sp_len P). set (h := sp_th P). clear - Hd.
      destruct (r_d r) as [|d']; [lia|]. cbn [Nat.sub Nat.mul]. rewrite Nat.sub_0_r. rewrite !Nat.mul_add_distr_r, Nat.mul_add_distr_l, !Nat.mul_assoc. lia. }
    split.
    { pose proof (p_hash HE mt r Hr) as HH. rewrite !bytes_ok_app. split; [apply toByte_ok|]. rewrite <- (sp_of_row r (sk_ref r)).
      split; [apply (Hf_bytes _ _ HH)|]. split; [|apply zeros_bytes]. apply bytes_ok_concat, Forall_forall. intros y Hy.
      unfold wots_sig in Hy. apply in_map_iff in Hy. destruct Hy as [ch [<- _]]. apply (chain_bytes _ _ HH), (Hf_bytes _ _ HH). }
    split; [left; reflexivity|]. split; [exact (last_fast r m)|]. exists ext'. split; [reflexivity|right; split; [reflexivity|exact Himg']].
Qed.

(** if the last signed message opens, the hash function is broken *)
Lemma last_breaks a b ct d cs os ixb tl m : fields r a b ct d -> ct = mt_root P a d -> b <> z -> (N.of_nat (length cs) + 1 = top)%N -> gave r a b ct d cs os -> bytes_ok m ->
  let sg := ixb ++ PRF P z (toByte (top - 1) 32) ++ tl in
  length ixb = ib -> length sg = sig_size r -> bytes_ok sg -> (ixb = toByte (top - 1) ib \/ ixb = repeat 255%N ib) ->
  forall c mbuf mlen oo, a_core c -> length (sg ++ m) <= length mbuf ->
  sign_open mt c mbuf mlen (sg ++ m) (public_key r ct d) = Ok oo -> oo_rc oo = 0%Z ->
  last_broken r a b ct d m sg (pairs r os).
Proof.
  intros Hf Hct Hnz Hn Hg Bm sg Lix Lsg Bsg Hix c mbuf mlen oo Hc Lb Hop Hrc. unfold last_broken. cbv zeta.
  assert (Hlo : (N.of_nat (length cs) <= top)%N) by lia.
  assert (A1 : sig_size r <= length (sg ++ m)) by (rewrite app_length; lia).
  assert (A2 : bytes_ok (sg ++ m)) by (apply bytes_ok_app; split; assumption).
  destruct (forgery_breaks HE mt r Hr a b ct d Hf Hct cs os c mbuf mlen (sg ++ m) oo Hlo Hg Hc A1 A2 Lb Hop Hrc) as [F1 F2].
  rewrite firstn_app_len in F1, F2 by (symmetry; exact Lsg). rewrite skipn_app_len in F1, F2 by (symmetry; exact Lsg).
  assert (Hidx : sm_index r (sg ++ m) = os2ip ixb).
  { unfold sm_index, sg. rewrite <- !app_assoc. now rewrite firstn_app_len by (symmetry; exact Lix). }
  rewrite Hidx in F1, F2.
  destruct (N.le_gt_cases top (os2ip ixb)) as [Hge|Hlt]; [left; now apply F1|]. right.
  assert (Eix : os2ip ixb = (top - 1)%N).
  { pose proof (pow_h_le mt r Hr) as Hpow. pose proof (ProofTree.pow2_pos (r_h r)) as Hpos. destruct Hix as [->| ->].
    - rewrite os2ip_toByte. apply N.mod_small. lia.
    - revert Hlt. rewrite <- top_repeat, os2ip_toByte. rewrite N.mod_small by lia. clear - Hpow Hpos. lia. }
  rewrite Eix in F2. specialize (F2 ltac:(lia)).
  destruct (list_eq_dec N.eq_dec (mt_sign P a b ct d (top - 1) m ++ m) (sg ++ m)) as [He|Hne].
  - left. apply app_inv_tail in He. pose proof (honest_R HE mt r Hr a b ct d (top - 1)%N m) as HR. rewrite He in HR. unfold sig_R, sg in HR.
    rewrite skipn_app_len in HR by (symmetry; exact Lix). rewrite firstn_app_len in HR.
    + split; [|exact HR]. unfold hashed. intros Hh. apply app_inv_head in Hh. apply app_inv_tail in Hh. now apply Hnz.
    + change (sp_n P) with n. rewrite <- (row_n r (sk_ref r)), <- (sp_of_row r (sk_ref r)). symmetry. apply (PRF_length _ _ (p_hash HE mt r Hr)).
  - right. apply F2; [exact Bm|exact Hne|]. intros x Hx. exfalso.
    assert (Hz : N.to_nat (top - 1) < length cs) by (apply nth_error_Some; congruence). clear - Hz Hn. lia.
Qed.

Lemma api_last core size : signer r core top size -> forall rnd pk0 sk0 cs pk sk sk' os m sm smlen, (forall i, (rnd i < 256)%N) ->
  length pk0 = 4 + pk_size r -> length sk0 = 4 + size -> bytes_ok sk0 ->
  keypair mt core pk0 sk0 (r_oid r) rnd = Ok (0%Z, pk, sk) -> sk_field r 1 sk <> z -> (N.of_nat (length cs) + 1 = top)%N -> Forall (call_ok r) cs ->
  sign_run mt core sk cs = Ok (sk', os) -> bytes_ok m -> sig_size r + length m <= length sm ->
  exists o sig, sign mt core sk' sm smlen m = Ok o /\ so_rc o = 0%Z /\ last_sig r m core sig /\ length sig = sig_size r /\ signed_message o = sig ++ m /\
  let released := map (fun o => (firstn (sig_size r) (signed_message o), skipn (sig_size r) (signed_message o))) os in
  forall c mbuf mlen oo, a_core c -> length (signed_message o) <= length mbuf ->
  sign_open mt c mbuf mlen (signed_message o) pk = Ok oo -> oo_rc oo = 0%Z ->
  last_broken r (sk_field r 0 sk) (sk_field r 1 sk) (sk_field r 2 sk) (sk_field r 3 sk) m sig released.
Proof.
  intros Hs rnd pk0 sk0 cs pk sk sk' os m sm smlen Hb Lp Ls Bs Hkp Hnz Hn Hok Hrun Bm Lsm.
  destruct (signer_live HE mt r Hr core top size Hs) as [St HL].
  destruct (live_key _ _ _ _ _ _ HL rnd pk0 sk0 Hb Lp Ls Bs) as (a & b & ct & d & sk1 & Hf & Hct & _ & HS & Hkp').
  assert (E1 : pk = public_key r ct d) by congruence. assert (E2 : sk1 = sk) by congruence. subst pk sk1. clear Hkp Hkp'.
  destruct (live_run core top size St HL a b ct d Hf cs 0%N sk HS ltac:(lia) Hok) as (sk'' & os' & HS' & Hrun' & Hl & Hnth).
  assert (E3 : sk'' = sk') by congruence. assert (E4 : os' = os) by congruence. subst sk'' os'. clear Hrun'.
  rewrite N.add_0_l in HS'. replace (N.of_nat (length cs)) with (top - 1)%N in HS' by lia.
  destruct (live_shape _ _ _ _ _ _ HL a b ct d _ sk Hf HS) as (_ & ext & Esk). subst sk.
  destruct (fsk_parts r 0 a b ct d ext Hf) as (_ & _ & _ & Q1 & Q2 & Q3 & Q4). rewrite Q2 in Hnz. rewrite Q1, Q2, Q3, Q4.
  destruct (last_shape core top size Hs eq_refl St HL a b ct d sk' sm smlen m Hf HS' Lsm) as (sk2 & ixb & tl & H1 & Lix & Lsg & Bsg & Hix & Hls & _).
  set (sg := ixb ++ _) in *. eexists _, sg. split; [exact H1|]. split; [reflexivity|]. split; [exact Hls|]. split; [exact Lsg|].
  assert (Esm : signed_message (mkSign 0 sk2 (sg ++ m ++ skipn (sig_size r + length m) sm) (sig_size r + length m)) = sg ++ m).
  { unfold signed_message. cbn [so_sm so_smlen]. rewrite app_assoc. apply firstn_app_len. rewrite app_length. lia. }
  rewrite Esm. split; [reflexivity|]. cbv zeta.
  intros c mbuf mlen oo Hc Lb Hop Hrc.
  assert (Hg : gave r a b ct d cs os).
  { apply (good_gave HE mt r Hr a b ct d cs os Hl). intros k x Hx. destruct (Hnth k x Hx) as (o & Ho & R1 & R2 & R3). exists o. split; [exact Ho|]. split; [exact R1|]. split; [exact R2|exact R3]. }
  apply (last_breaks a b ct d cs os ixb tl m Hf Hct Hnz Hn Hg Bm Lix Lsg Bsg Hix c mbuf mlen oo Hc); [exact Lb|exact Hop|exact Hrc].
Qed.
End Last.

(** with this hash function and a zero secret seed the last signed message does open *)
Section Toy.
Local Existing Instance ProofMain3.zero_env.
Variables (mt : bool) (r : row).
Hypothesis Hr : In r (rows mt).
Hypothesis Hfn : r_fn r = SHA2.
Hypothesis Hn : r_n r = 32.
Notation z := (repeat 0%N 32).
Notation P := (row_sp r).
Lemma last_opens_zero rnd pk0 sk0 cs m sm smlen mbuf mlen : (forall i, (rnd i < 256)%N) -> map rnd (seq 0 32) = z ->
  length pk0 = 4 + pk_size r -> length sk0 = 4 + sk_size r ->
  (N.of_nat (length cs) + 1 = 2 ^ N.of_nat (r_h r))%N -> Forall (call_ok r) cs ->
  bytes_ok m -> sig_size r + length m <= length sm -> sig_size r + length m <= length mbuf ->
  exists pk sk sk' os o oo,
    keypair mt ref_core pk0 sk0 (r_oid r) rnd = Ok (0%Z, pk, sk) /\
    sign_run mt ref_core sk cs = Ok (sk', os) /\
    sign mt ref_core sk' sm smlen m = Ok o /\ so_rc o = 0%Z /\
    sign_open mt ref_core mbuf mlen (signed_message o) pk = Ok oo /\ oo_rc oo = 0%Z.
Proof.
  intros Hb Hne Hpk Hsk Hi Hok Bm Lsm Lm. pose proof zero_env_ok as HE.
  destruct (keypair_exact HE mt r pk0 sk0 rnd Hr Hb Hpk Hsk) as [a [b [ct [d [Hf [Hct [Hmat Hkp]]]]]]].
  destruct (run_live HE mt r a b ct d Hr Hf cs 0%N ltac:(lia) Hok) as [os [Hrun _]]. rewrite N.add_0_l in Hrun.
  set (i := N.of_nat (length cs)) in *.
  assert (Ha : a = map rnd (seq 0 32)) by (unfold key_material in Hmat; rewrite Hn in Hmat; congruence).
  assert (Hx : sk_index r (secret_key r i a b ct d) = i).
  { rewrite secret_key_index. apply N.mod_small. pose proof (pow_h_le mt r Hr). lia. }
  pose proof (sign_last_row HE mt r Hr (secret_key r i a b ct d) (secret_key_ok r i a b ct d Hf) sm smlen m) as Hs.
  rewrite Hx in Hs. specialize (Hs Hi Lsm). cbv zeta in Hs.
  pose proof Hf as [[La [Lb [Lc Ld]]] [Ba [Bb [Bc Bd]]]].
  rewrite Hn in *.
  set (R := PRF P z (toByte i 32)) in *.
  pose proof (toy_layers (fun _ => 0%N) r Hfn Hn z z (repeat_length _ _) (zeros_ok 32) (H_msg P R z i m) i) as HL.
  change (sp_d (row_sp r)) with (r_d r) in HL. change (@row_sp (toy_env (fun _ : nat => 0%N)) r) with P in HL. rewrite HL in Hs.
  set (x := concat (repeat z (r_d r * (sp_len P + sp_th P)))) in *.
  assert (HR : length R = 32).
  { unfold R. rewrite <- (sp_of_row r (sk_ref r)), (PRF_length _ _ (p_hash HE mt r Hr)). now rewrite row_n. }
  set (sg := repeat 255%N (idx_size r) ++ R ++ x).
  assert (Hs' : sign mt ref_core (secret_key r i a b ct d) sm smlen m =
     Ok (mkSign 0 (secret_key r (2 ^ N.of_nat (r_h r)) z z z z) ((sg ++ m) ++ skipn (sig_size r + length m) sm) (sig_size r + length m))).
  { rewrite Hs. unfold sg. rewrite <- !app_assoc. reflexivity. }
  assert (Lx : length x = r_d r * (sp_len P + sp_th P) * 32) by (apply concat_repeat_length, repeat_length).
  assert (Lsg : length sg = sig_size r).
  { unfold sg. rewrite !app_length, repeat_length, HR, Lx. unfold sig_size, sp_sig_bytes. change (sp_n P) with (r_n r). rewrite Hn. change (sp_d P) with (r_d r). unfold idx_size. lia. }
  assert (Bsg : bytes_ok sg).
  { unfold sg. rewrite !bytes_ok_app. split; [apply Forall_forall; intros y Hy; apply repeat_spec in Hy; subst; reflexivity|].
    split; [unfold R; apply (Hf_bytes (row_params r (sk_ref r)) _ (p_hash HE mt r Hr))|].
    apply bytes_ok_concat, Forall_forall. intros y Hy. apply repeat_spec in Hy. subst. apply zeros_ok. }
  assert (Hkey : key_of r (pk_size r) (public_key r ct d)).
  { unfold public_key, pk_size. split; [rewrite !app_length, toByte_length; lia|]. split; [apply firstn_app_len; now rewrite toByte_length|].
    rewrite !bytes_ok_app. repeat split; try assumption. apply toByte_ok. }
  destruct (open_decides HE mt r ref_core mbuf mlen (sg ++ m) (public_key r ct d) Hr (or_introl eq_refl) Hkey) as [oo [Hoo [_ [Hrej _]]]].
  - rewrite app_length. lia.
  - rewrite bytes_ok_app. auto.
  - rewrite app_length. lia.
  - rewrite (skipn_app_len sg m), (firstn_app_len sg m) in Hrej by lia.
    assert (Hrt : firstn (r_n r) (skipn 4 (public_key r ct d)) = a).
    { unfold public_key. rewrite skipn_app_len by (now rewrite toByte_length). rewrite firstn_app_len by lia.
      rewrite Hct. apply (toy_root (fun _ => 0%N) r Hfn Hn a d La Ba). }
    rewrite Hrt in Hrej. unfold sg in Hrej at 1. rewrite (ProofMain3.toy_verify mt r Hr Hfn Hn z) in Hrej; [|apply repeat_length|apply zeros_ok|apply repeat_length|exact HR|reflexivity].
    destruct (list_eq_dec N.eq_dec z a) as [_|He]; [|congruence]. destruct (Hrej eq_refl) as [A1 _].
    exists (public_key r ct d), (secret_key r 0 a b ct d), (secret_key r i a b ct d), os,
      (mkSign 0 (secret_key r (2 ^ N.of_nat (r_h r)) z z z z) ((sg ++ m) ++ skipn (sig_size r + length m) sm) (sig_size r + length m)), oo.
    unfold signed_message. cbn [so_smlen so_sm so_rc]. rewrite (firstn_app_len (sg ++ m)) by (rewrite app_length; lia).
    repeat split; auto.
Qed.
End Toy.
