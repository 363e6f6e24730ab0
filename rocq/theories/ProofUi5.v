(** The tools with either core: what a run on a live key does, sessions, crash histories. *)
From Coq Require Import String.
From Verif Require Import Base Lib ModelUtils ModelParams ModelCore ModelCoreFast ModelCommons ModelXmss ModelUi
  SpecRfc SpecParams SpecApi SpecComp SpecFast SpecUi ProofUtils ProofHash ProofCore ProofParams ProofApi ProofHistory ProofMain ProofMain2 ProofUi ProofUi2
  ProofFast1 ProofFast3 ProofFast5 ProofFast6 ProofFast7 ProofMt7 ProofStale2 ProofMt8 ProofMt9 ProofMt10 ProofForge2 ProofAny ProofBoth ProofUi3 ProofUi4.

Lemma positions_app pos (x y : bytes) : positions pos (x ++ y) = positions pos x ++ positions (pos + List.length x) y.
Proof.
  unfold positions. revert pos. induction x as [|v x IH]; intros pos; [cbn; now rewrite Nat.add_0_r|].
  cbn [app List.length seq combine]. f_equal. rewrite IH. f_equal. f_equal. f_equal. lia.
Qed.
(** a run may stop with its output out and any prefix of the key update on the disk *)
Lemma flush_torn kf pos d sm k : pos + List.length d <= List.length kf -> k <= List.length d ->
  disk_reach (mkDisk kf [] [] [] [KeyWrite pos d; OutWrite sm; KeyClose; ExitProc])
    (mkDisk (torn kf pos d k) (positions (pos + k) (skipn k d)) sm [] [KeyClose; ExitProc]).
Proof.
  intros H Hk. destruct (flush_reach kf pos d sm H) as [R1 _].
  assert (Ep : positions pos d = positions pos (firstn k d) ++ positions (pos + k) (skipn k d)).
  { rewrite <- (firstn_skipn k d) at 1. rewrite positions_app, firstn_length, Nat.min_l by lia. reflexivity. }
  assert (Hl : List.length (positions pos (firstn k d)) = k) by (unfold positions; rewrite combine_length, seq_length, firstn_length; lia).
  destruct (torn_flush kf pos d (positions pos (firstn k d)) H 0 (positions (pos + k) (skipn k d))) as [T1 _]; [lia|rewrite Nat.add_0_r, skipn_O; now symmetry|].
  rewrite torn_0, Hl in T1. cbn [Nat.add] in T1. rewrite Ep in R1. rewrite <- T1. eapply dr_step; [exact R1|apply ds_flush_key].
Qed.

Section Live.
Context {E : Env}.
Hypothesis HE : env_ok E.
Variables (mt : bool) (r : row).
Hypothesis Hr : In r (rows mt).
Notation P := (row_sp r).
Notation ib := (idx_size r).
Notation top := (2 ^ N.of_nat (r_h r))%N.

(** a key is "live at i" if the next call signs with index i and leaves a key live at i+1 *)
Record live (core : core) (lim : N) (size : nat) (St : bytes -> bytes -> bytes -> bytes -> N -> bytes -> Prop) : Prop := mkLive {
  live_shape : forall a b c d i sk, fields r a b c d -> St a b c d i sk -> List.length sk = 4 + size /\ exists ext, sk = secret_key r i a b c d ++ ext;
  live_step : forall a b c d i sk sm smlen m, fields r a b c d -> St a b c d i sk -> (i + 1 < lim)%N -> sig_size r + List.length m <= List.length sm ->
    exists sk', St a b c d (i + 1)%N sk' /\
      sign mt core sk sm smlen m = Ok (mkSign 0 sk' (mt_sign P a b c d i m ++ m ++ skipn (sig_size r + List.length m) sm) (sig_size r + List.length m));
  live_key : forall rnd pk0 sk0, (forall i, (rnd i < 256)%N) -> List.length pk0 = 4 + pk_size r -> List.length sk0 = 4 + size -> bytes_ok sk0 ->
    exists a b c d sk, fields r a b c d /\ c = mt_root P a d /\ key_material r rnd = (a, b, c, d) /\ St a b c d 0%N sk /\
      keypair mt core pk0 sk0 (r_oid r) rnd = Ok (0%Z, public_key r c d, sk);
  live_ser : forall a b c d i sk, fields r a b c d -> St a b c d i sk -> size = fast_size r ->
    exists ext, sk = secret_key r i a b c d ++ ext /\ ser_image (row_params r (sk_fast r)) ext;
  live_behind : forall a b c d i sk ext sm smlen m, fields r a b c d -> St a b c d i sk -> size = fast_size r -> sk = secret_key r i a b c d ++ ext -> (i + 2 < top)%N -> N.odd i = true ->
    ((i + 1) mod 2 ^ N.of_nat (sp_th P) <> 0)%N -> sig_size r + List.length m <= List.length sm -> exists o, sign mt core (secret_key r (i + 1) a b c d ++ ext) sm smlen m = Ok o }.

Lemma secret_key_length i a b c d : fields r a b c d -> List.length (secret_key r i a b c d) = 4 + sk_size r.
Proof. intros [[La [Lb [Lc Ld]]] _]. unfold secret_key, sk_size. rewrite !app_length, !toByte_length. lia. Qed.

Lemma fast_live (G : bytes -> bytes -> N -> bytes -> Prop) :
  (forall sks prfk rt seed : bytes, List.length sks = r_n r -> List.length prfk = r_n r -> List.length rt = r_n r -> List.length seed = r_n r -> forall (i : N) (ext sm : bytes) (smlen : nat) (m : bytes),
        G sks seed i ext -> (i + 2 < top)%N -> N.odd i = true -> ((i + 1) mod 2 ^ N.of_nat (sp_th P) <> 0)%N -> sig_size r + List.length m <= List.length sm ->
        exists o, fsg mt (row_params r (sk_fast r)) (ProofCore.sk_layout (toByte (i + 1) (idx_size r)) sks prfk rt seed ext) sm smlen m = Ok o) ->
  (forall sks prfk rt seed : bytes, List.length sks = r_n r -> List.length prfk = r_n r -> List.length rt = r_n r -> List.length seed = r_n r -> forall (i : N) (ext sm : bytes) (smlen : nat) (m : bytes),
        G sks seed i ext -> (i + 1 < fast_limit r)%N -> sig_size r + List.length m <= List.length sm -> exists ext', G sks seed (i + 1)%N ext' /\
        fsg mt (row_params r (sk_fast r)) (ProofCore.sk_layout (toByte i (idx_size r)) sks prfk rt seed ext) sm smlen m =
          Ok (mkSign 0 (ProofCore.sk_layout (toByte (i + 1) (idx_size r)) sks prfk rt seed ext')
                (mt_sign P sks prfk rt seed i m ++ m ++ skipn (sig_size r + List.length m) sm) (sig_size r + List.length m))) ->
  (forall sks seed i ext, List.length sks = r_n r -> List.length seed = r_n r -> G sks seed i ext -> ser_image (row_params r (sk_fast r)) ext) ->
  (forall rnd pk0 sk0, (forall i, (rnd i < 256)%N) -> List.length pk0 = 4 + pk_size r -> List.length sk0 = 4 + fast_size r -> bytes_ok sk0 ->
      exists a b c d ext, fields r a b c d /\ c = mt_root P a d /\ key_material r rnd = (a, b, c, d) /\ G a d 0%N ext /\
        keypair mt fast_core pk0 sk0 (r_oid r) rnd = Ok (0%Z, public_key r c d, secret_key r 0 a b c d ++ ext)) ->
  live fast_core (fast_limit r) (fast_size r) (fun a b c d i sk => exists ext, G a d i ext /\ sk = secret_key r i a b c d ++ ext).
Proof.
  intros H0 H1 H2 H3. constructor.
  - intros a b c d i sk Hf (ext & HG & ->). split; [|eauto]. pose proof Hf as [[La [Lb [Lc Ld]]] _].
    rewrite app_length, (secret_key_length i a b c d Hf), (ser_len mt r Hr ext (H2 a d i ext La Ld HG)), (fast_size_eq mt r Hr). unfold sk_size. lia.
  - intros a b c d i sk sm smlen m Hf (ext & HG & ->) Hi Hl. pose proof Hf as [[La [Lb [Lc Ld]]] _].
    destruct (fstep_live mt r Hr a b c d (G a d) (fast_limit r) (H1 a b c d La Lb Lc Ld) i ext (mkCall m sm smlen) HG Hi Hl) as (ext' & HG' & Hs).
    exists (secret_key r (i + 1) a b c d ++ ext'). split; [eauto|]. exact Hs.
  - intros rnd pk0 sk0 Hb Lp Ls Bs. destruct (H3 rnd pk0 sk0 Hb Lp Ls Bs) as (a & b & c & d & ext & Hf & Hc & Hm & HG & Hk).
    exists a, b, c, d. eexists. split; [exact Hf|]. split; [exact Hc|]. split; [exact Hm|]. split; [exists ext; split; [exact HG|reflexivity]|exact Hk].
  - intros a b c d i sk Hf (ext & HG & ->) _. pose proof Hf as [[La [Lb [Lc Ld]]] _]. exists ext. split; [reflexivity|exact (H2 a d i ext La Ld HG)].
  - intros a b c d i sk ext sm smlen m Hf (ext' & HG & ->) _ He Hi Hodd Hend Hl. pose proof Hf as [[La [Lb [Lc Ld]]] _]. apply app_inv_head in He. subst ext'.
    destruct (H0 a b c d La Lb Lc Ld i ext sm smlen m HG Hi Hodd Hend Hl) as (o & Ho). rewrite <- layout_ext, (fsign_eq mt r Hr), Ho, bind_ok. eauto.
Qed.

End Live.

Section Live2.
Context {E : Env}.
Hypothesis HE : env_ok E.
Variables (mt : bool) (r : row).
Hypothesis Hr : In r (rows mt).
Notation P := (row_sp r).
Notation ib := (idx_size r).
Notation top := (2 ^ N.of_nat (r_h r))%N.

Lemma signer_live core lim size : signer r core lim size -> exists St, live mt r core lim size St.
Proof.
  intros [|].
  - exists (fun a b c d i sk => sk = secret_key r i a b c d). constructor.
    + intros a b c d i sk Hf ->. split; [now apply secret_key_length|exists []; now rewrite app_nil_r].
    + intros a b c d i sk sm smlen m Hf -> Hi Hl. eexists. split; [reflexivity|]. exact (step_live HE mt r Hr i a b c d (mkCall m sm smlen) Hf Hi Hl).
    + intros rnd pk0 sk0 Hb Lp Ls _. destruct (keypair_exact HE mt r pk0 sk0 rnd Hr Hb Lp Ls) as (a & b & c & d & Hf & Hc & Hm & Hk).
      exists a, b, c, d. eexists. do 3 (split; [eassumption|]). split; [reflexivity|exact Hk].
    + intros a b c d i sk _ _ Hx. exfalso. now apply (fast_bigger mt r Hr).
    + intros a b c d i sk ext sm smlen m _ _ Hx. exfalso. now apply (fast_bigger mt r Hr).
  - destruct mt; eexists.
    + apply (fast_live _ r Hr (goodm r)); [exact (mbehind HE r Hr)|exact (mstep HE r Hr)|exact (mser HE r Hr)|]. intros rnd pk0 sk0. exact (fkey_mat HE true r Hr (goodm r) (mkey HE r Hr) pk0 sk0 rnd).
    + apply (fast_live _ r Hr (good1 r)); [exact (xbehind HE r Hr)|rewrite single_limit by exact Hr; exact (xstep HE r Hr)| |].
      * exact (x_Gser HE r Hr).
      * intros rnd pk0 sk0. exact (fkey_mat HE false r Hr (good1 r) (x_Gkey HE r Hr) pk0 sk0 rnd).
Qed.

Section Signer.
Variables (core : core) (lim : N) (size : nat).
Hypothesis Hs : signer r core lim size.
Variable St : bytes -> bytes -> bytes -> bytes -> N -> bytes -> Prop.
Hypothesis HL : live mt r core lim size St.
Variables a b ct d : bytes.
Hypothesis Hf : fields r a b ct d.
Hypothesis Hct : ct = mt_root P a d.
Notation pk := (public_key r ct d).

(** one run of the sign tool on a live key: it ends well, and it may also stop with the
    complete output out while the key file is the old one *)
Lemma live_tool i sk rest m : St a b ct d i sk -> (i + 1 < lim)%N ->
  exists u sk', ui_sign mt core true (Some (pk ++ sk ++ rest)) (Some m) = Ok u /\ ui_exit u = 0%Z /\ St a b ct d (i + 1)%N sk' /\
    completed (pk ++ sk ++ rest) u (pk ++ sk' ++ rest) (mt_sign P a b ct d i m ++ m) /\
    (exists s, crash_state (pk ++ sk ++ rest) u s /\ d_key s = pk ++ sk ++ rest /\ d_out s = mt_sign P a b ct d i m ++ m) /\
    (forall kf' out, completed (pk ++ sk ++ rest) u kf' out -> kf' = pk ++ sk' ++ rest /\ out = mt_sign P a b ct d i m ++ m) /\
    (forall k, k <= size -> exists s, crash_state (pk ++ sk ++ rest) u s /\ d_key s = pk ++ torn_key k sk sk' ++ rest /\ d_out s = mt_sign P a b ct d i m ++ m).
Proof.
  intros HS Hi. destruct (signer_acc mt r Hr core lim size Hs) as (Hacc & skb & A1 & A2 & A3 & A4).
  destruct (live_shape _ _ _ _ _ _ HL _ _ _ _ _ _ Hf HS) as (Ls & ext & Es).
  destruct (live_step _ _ _ _ _ _ HL a b ct d i sk (uninit (sig_size r + List.length m)) (N.to_nat (junk 0)) m Hf HS Hi) as (sk' & HS' & Hsg); [rewrite uninit_length; lia|].
  destruct (live_shape _ _ _ _ _ _ HL _ _ _ _ _ _ Hf HS') as (Ls' & ext' & Es').
  assert (O4 : forall j e, firstn 4 (secret_key r j a b ct d ++ e) = toByte (r_oid r) 4).
  { intros j e. unfold secret_key. rewrite <- app_assoc. apply firstn_app_len. now rewrite toByte_length. }
  pose proof (tool_eq mt core r r size skb pk rest Hr Hr Hacc A1 A2 A3 (pk_is_key r a b ct d Hf) sk m Ls ltac:(rewrite Es; apply O4)) as Hu.
  unfold tool_call in Hu. rewrite Hsg in Hu. cbn [bind so_sk so_sm so_smlen] in Hu.
  assert (R1 : rd sk' 4 size = Ok (skipn 4 sk')).
  { unfold rd. destruct (Nat.leb_spec (4 + size) (List.length sk')) as [_|Hx]; [|lia]. f_equal. apply firstn_all2. rewrite skipn_length. lia. }
  set (sg := mt_sign P a b ct d i m) in *. assert (Lsg : List.length sg = sig_size r) by (apply (mt_sign_len HE mt r Hr)).
  assert (R2 : rd (sg ++ m ++ skipn (sig_size r + List.length m) (uninit (sig_size r + List.length m))) 0 (sig_size r + List.length m) = Ok (sg ++ m)).
  { unfold rd. rewrite skipn_O. rewrite !app_length. destruct (Nat.leb_spec (0 + (sig_size r + List.length m)) (List.length sg + (List.length m + List.length (skipn (sig_size r + List.length m) (uninit (sig_size r + List.length m)))))) as [_|Hx]; [|lia].
    f_equal. rewrite app_assoc. apply firstn_app_len. rewrite app_length. lia. }
  rewrite R1, R2 in Hu. cbn [bind] in Hu.
  assert (Hb : List.length pk + 4 + List.length (skipn 4 sk') <= List.length (pk ++ sk ++ rest)) by (rewrite !app_length, skipn_length; lia).
  destruct (flush_reach (pk ++ sk ++ rest) (List.length pk + 4) (skipn 4 sk') (sg ++ m) Hb) as [F1 F2].
  assert (Et : torn (pk ++ sk ++ rest) (List.length pk + 4) (skipn 4 sk') (List.length (skipn 4 sk')) = pk ++ sk' ++ rest).
  { unfold torn. rewrite firstn_app_2, (firstn_all (skipn 4 sk')). rewrite firstn_app. replace (4 - List.length sk) with 0 by lia. rewrite firstn_O, app_nil_r.
    replace (firstn 4 sk) with (firstn 4 sk') by (rewrite Es, Es', !O4; reflexivity).
    rewrite <- app_assoc. f_equal. rewrite app_assoc, firstn_skipn. f_equal. rewrite skipn_length, app_assoc. apply skipn_app_len. rewrite app_length. lia. }
  rewrite Et in F2. eexists _, sk'. split; [exact Hu|]. split; [reflexivity|]. split; [exact HS'|]. split; [exact F2|]. split.
  - eexists. split; [exact F1|split; reflexivity].
  - split; [intros kf' out Hc; destruct (completed_unique _ _ _ _ _ _ Hb Hc) as [-> ->]; rewrite Et; auto|].
    intros k Hk. pose proof (flush_torn (pk ++ sk ++ rest) (List.length pk + 4) (skipn 4 sk') (sg ++ m) k Hb ltac:(rewrite skipn_length; lia)) as F3.
    rewrite (torn_key_kf mt core r size skb pk rest Hr Hacc A2 A3 sk sk' k) in F3 by (assumption || congruence || (rewrite Es, Es', !O4; reflexivity)).
    eexists. split; [exact F3|split; reflexivity].
Qed.

Lemma honest_tool c i m rest : a_core c -> (i < top)%N -> bytes_ok m ->
  skipn (sig_size r) (mt_sign P a b ct d i m ++ m) = m /\
  ui_open mt c true (Some (pk ++ rest)) (Some (mt_sign P a b ct d i m ++ m)) = Ok (0%Z, VerificationSucceeded).
Proof.
  intros Hc Hi Bm. split; [apply skipn_app_len; now rewrite (mt_sign_len HE mt r Hr)|].
  destruct (honest_opens HE mt r Hr a b ct d Hf Hct c i m (uninit (List.length (mt_sign P a b ct d i m ++ m))) (N.to_nat (junk 0)) Hc) as [oo [Hoo [Hrc _]]]; [lia|assumption|rewrite uninit_length, app_length, (mt_sign_len HE mt r Hr); lia|].
  rewrite (open_tool mt r c pk rest _ _ _ Hr Hc (pk_is_key r a b ct d Hf) eq_refl eq_refl oo Hoo), Hrc. reflexivity.
Qed.

Lemma live_session c rest0 : a_core c -> forall ms i sk rest,
  St a b ct d i sk -> (i + N.of_nat (List.length ms) < lim)%N -> Forall bytes_ok ms ->
  exists sk' outs, St a b ct d (i + N.of_nat (List.length ms))%N sk' /\ session mt core (pk ++ sk ++ rest) ms (pk ++ sk' ++ rest) outs /\
    Forall2 (fun m out => skipn (sig_size r) out = m /\ ui_open mt c true (Some (pk ++ rest0)) (Some out) = Ok (0%Z, VerificationSucceeded)) ms outs.
Proof.
  intros Hc ms. induction ms as [|m ms IH]; intros i sk rest HS Hi Hb.
  - exists sk, []. cbn [List.length N.of_nat]. rewrite N.add_0_r. split; [exact HS|]. split; constructor.
  - cbn [List.length] in Hi. inversion Hb as [|? ? Hbm Hbms]; subst x l.
    destruct (live_tool i sk rest m HS ltac:(lia)) as (u & sk1 & Hu & Hx & HS1 & Hcomp & _ & _ & _).
    destruct (IH (i + 1)%N sk1 rest HS1) as (sk' & outs & HS' & Hses & Hall); [lia|assumption|].
    exists sk', ((mt_sign P a b ct d i m ++ m) :: outs). split; [|split].
    + cbn [List.length]. replace (i + N.of_nat (S (List.length ms)))%N with (i + 1 + N.of_nat (List.length ms))%N by lia. exact HS'.
    + eapply ses_cons; [exact Hu|exact Hx|exact Hcomp|exact Hses].
    + constructor; [|exact Hall]. apply honest_tool; [exact Hc| |exact Hbm]. pose proof (limit_le mt r Hr core lim size Hs). lia.
Qed.
(** sessions are deterministic *)
Lemma live_session_det : forall ms i sk rest k1 o1 k2 o2,
  St a b ct d i sk -> (i + N.of_nat (List.length ms) < lim)%N -> session mt core (pk ++ sk ++ rest) ms k1 o1 -> session mt core (pk ++ sk ++ rest) ms k2 o2 -> k1 = k2 /\ o1 = o2.
Proof.
  clear Hct. induction ms as [|m ms IH]; intros i sk rest k1 o1 k2 o2 HS Hi H1 H2.
  - inversion H1; inversion H2; subst. auto.
  - cbn [List.length] in Hi. inversion H1 as [|? ? ? u1 kf1 out1 ? outs1 Hu1 Hx1 Hc1 Hr1]; subst. inversion H2 as [|? ? ? u2 kf2 out2 ? outs2 Hu2 Hx2 Hc2 Hr2]; subst.
    destruct (live_tool i sk rest m HS ltac:(lia)) as (u' & sk1 & Hu' & _ & HS1 & _ & _ & Hun & _). assert (u1 = u') by congruence. assert (u2 = u') by congruence. subst u1 u2.
    destruct (Hun _ _ Hc1) as [-> ->]. destruct (Hun _ _ Hc2) as [-> ->].
    destruct (IH (i + 1)%N sk1 rest k1 outs1 k2 outs2 HS1 ltac:(lia) Hr1 Hr2) as [-> ->]. auto.
Qed.
(** a killed run and the next one use the same index *)
Lemma live_reuse c rest0 i sk rest m1 m2 : a_core c -> St a b ct d i sk -> (i + 1 < lim)%N -> bytes_ok m1 -> bytes_ok m2 ->
  exists s1 s2, runs mt core (pk ++ sk ++ rest) [(pk ++ sk ++ rest, m1, s1); (pk ++ sk ++ rest, m2, s2)] /\
    (forall m s, (m, s) = (m1, s1) \/ (m, s) = (m2, s2) ->
       sm_index r (d_out s) = i /\ skipn (sig_size r) (d_out s) = m /\
       ui_open mt c true (Some (pk ++ rest0)) (Some (d_out s)) = Ok (0%Z, VerificationSucceeded)).
Proof.
  intros Hc HS Hi B1 B2. pose proof (limit_le mt r Hr core lim size Hs) as Hlim.
  destruct (live_tool i sk rest m1 HS Hi) as (u1 & _ & Hu1 & _ & _ & _ & (s1 & Hs1 & K1 & O1) & _ & _).
  destruct (live_tool i sk rest m2 HS Hi) as (u2 & _ & Hu2 & _ & _ & _ & (s2 & Hs2 & K2 & O2) & _ & _).
  exists s1, s2. split.
  - eapply runs_cons; [exact Hu1|exact Hs1|]. rewrite K1. eapply runs_cons; [exact Hu2|exact Hs2|]. constructor.
  - assert (HX : forall m, sm_index r (mt_sign P a b ct d i m ++ m) = i).
    { intros m. unfold sm_index. rewrite (mt_sign_index r a b ct d), os2ip_toByte. apply N.mod_small. pose proof (pow_h_le mt r Hr). lia. }
    intros m s [[= -> ->]|[= -> ->]]; [rewrite O1|rewrite O2]; (split; [apply HX|apply honest_tool; [exact Hc|lia|assumption]]).
Qed.
End Signer.

(** the keypair tool *)
Lemma tool_key core lim size St rnd : signer r core lim size -> live mt r core lim size St -> (forall i, (rnd i < 256)%N) -> bytes_ok (uninit (4 + size)) ->
  exists u a b c d sk, ui_keypair mt core (Some (row_name r)) rnd = Ok u /\ ui_exit u = 0%Z /\ fields r a b c d /\ c = mt_root P a d /\
    key_material r rnd = (a, b, c, d) /\ St a b c d 0%N sk /\
    completed [] u [] (public_key r c d ++ sk) /\ (forall kf, completed [] u [] kf -> kf = public_key r c d ++ sk).
Proof.
  intros Hs HL Hb Hj. destruct (signer_acc mt r Hr core lim size Hs) as (_ & skb & A1 & A2 & _ & _).
  destruct (live_key _ _ _ _ _ _ HL rnd (uninit (4 + pk_size r)) (uninit (4 + size)) Hb (uninit_length _) (uninit_length _) Hj) as (a & b & c & d & sk & Hf & Hc & Hm & HS & Hk).
  eexists _, a, b, c, d, sk. split.
  - unfold ui_keypair. change (ui_str_to_oid mt (row_name r)) with (ProofParams.str_to_oid mt (row_name r)).
    rewrite (proj2 (str_to_oid_spec mt (row_name r) (r_oid r))) by eauto. change (ui_parse_oid mt) with (ProofParams.parse_oid mt).
    rewrite A1. cbn [bind]. rewrite row_pk_size, A2.
    change XMSS_OID_LEN with 4. change (ui_keypair_fn mt core) with (keypair mt core). rewrite Hk. cbn [bind]. reflexivity.
  - split; [reflexivity|]. do 4 (split; [assumption|]). unfold completed, crash_state. cbn [ui_acts]. set (pk := public_key r c d). split.
    + eapply dr_step; [eapply dr_step; [eapply dr_step; [constructor|apply (ds_outwrite [] [] [] [] pk)]|apply (ds_outwrite [] [] [] ([] ++ pk) sk)]|].
      cbn [app]. apply (ds_exit [] [] [] (pk ++ sk) []).
    + intros kf Hkf.
      assert (HI : forall s, disk_reach (mkDisk [] [] [] [] [OutWrite pk; OutWrite sk; ExitProc]) s ->
        d_out s ++ d_outbuf s ++ concat (map (fun x => match x with OutWrite y => y | _ => [] end) (d_todo s)) = pk ++ sk).
      { intros s Hr0. induction Hr0 as [|s1 s2 _ IH Hst].
        - cbn [d_out d_outbuf d_todo map concat app]. now rewrite app_nil_r.
        - destruct Hst; cbn [d_out d_outbuf d_todo map concat app] in *; rewrite <- ?app_assoc in *; exact IH. }
      specialize (HI _ Hkf). cbn [d_out d_outbuf d_todo map concat app] in HI. now rewrite app_nil_r in HI.
Qed.
End Live2.

Lemma keypair_out pk sk kf : completed [] (mkUi 0 [OutWrite pk; OutWrite sk; ExitProc]) [] kf -> kf = pk ++ sk.
Proof.
  unfold completed, crash_state. cbn [ui_acts]. intros Hkf.
  assert (HI : forall s, disk_reach (mkDisk [] [] [] [] [OutWrite pk; OutWrite sk; ExitProc]) s ->
    d_out s ++ d_outbuf s ++ concat (map (fun x => match x with OutWrite y => y | _ => [] end) (d_todo s)) = pk ++ sk).
  { intros s Hr0. induction Hr0 as [|s1 s2 _ IH Hst].
    - cbn [d_out d_outbuf d_todo map concat app]. now rewrite app_nil_r.
    - destruct Hst; cbn [d_out d_outbuf d_todo map concat app] in *; rewrite <- ?app_assoc in *; exact IH. }
  specialize (HI _ Hkf). cbn [d_out d_outbuf d_todo map concat app] in HI. now rewrite app_nil_r in HI.
Qed.
Lemma act_eq_dec : forall x y : act, {x = y} + {x <> y}.
Proof. decide equality; try apply Nat.eq_dec; apply (list_eq_dec N.eq_dec). Qed.

(** ** The statements *)
Lemma tools_signer {E : Env} (HE : env_ok E) mt r core lim size rnd ms c : In r (rows mt) -> signer r core lim size -> (forall i, (rnd i < 256)%N) ->
  bytes_ok (uninit (4 + size)) -> a_core c -> (N.of_nat (List.length ms) < lim)%N -> Forall bytes_ok ms ->
  exists u kf kf' outs, ui_keypair mt core (Some (row_name r)) rnd = Ok u /\ ui_exit u = 0%Z /\
    completed [] u [] kf /\ (forall kf1, completed [] u [] kf1 -> kf1 = kf) /\
    session mt core kf ms kf' outs /\ (forall kf1 outs1, session mt core kf ms kf1 outs1 -> kf1 = kf' /\ outs1 = outs) /\
    Forall2 (fun m out => skipn (sig_size r) out = m /\ ui_open mt c true (Some kf) (Some out) = Ok (0%Z, VerificationSucceeded)) ms outs.
Proof.
  intros Hr Hs Hb Hj Hc Hn Hm. destruct (signer_live HE mt r Hr core lim size Hs) as (St & HL).
  destruct (tool_key mt r Hr core lim size St rnd Hs HL Hb Hj) as (u & a & b & ct & d & sk & Hu & Hx & Hf & Hct & _ & HS & Hk & Hkun).
  destruct (live_session HE mt r Hr core lim size Hs St HL a b ct d Hf Hct c sk Hc ms 0%N sk [] HS ltac:(lia) Hm) as (sk' & outs & _ & Hses & Hall).
  rewrite app_nil_r in Hses. exists u. eexists _, _, outs. split; [exact Hu|]. split; [exact Hx|]. split; [exact Hk|]. split; [exact Hkun|]. split; [exact Hses|]. split; [|exact Hall].
  intros kf1 outs1 H1. rewrite <- (app_nil_r sk) in H1, Hses at 1.
  exact (live_session_det HE mt r Hr core lim size Hs St HL a b ct d Hf ms 0%N sk [] _ _ _ _ HS ltac:(lia) H1 Hses).
Qed.

Lemma tools_reuse {E : Env} (HE : env_ok E) mt r core lim size rnd ms c m1 m2 : In r (rows mt) -> signer r core lim size -> (forall i, (rnd i < 256)%N) ->
  bytes_ok (uninit (4 + size)) -> a_core c -> (N.of_nat (List.length ms) + 1 < lim)%N -> Forall bytes_ok ms -> bytes_ok m1 -> bytes_ok m2 ->
  exists u kf kf' outs s1 s2, ui_keypair mt core (Some (row_name r)) rnd = Ok u /\ completed [] u [] kf /\ session mt core kf ms kf' outs /\
    runs mt core kf' [(kf', m1, s1); (kf', m2, s2)] /\
    (forall m s, (m, s) = (m1, s1) \/ (m, s) = (m2, s2) ->
       sm_index r (d_out s) = N.of_nat (List.length ms) /\ skipn (sig_size r) (d_out s) = m /\
       ui_open mt c true (Some kf) (Some (d_out s)) = Ok (0%Z, VerificationSucceeded)).
Proof.
  intros Hr Hs Hb Hj Hc Hn Hm B1 B2. destruct (signer_live HE mt r Hr core lim size Hs) as (St & HL).
  destruct (tool_key mt r Hr core lim size St rnd Hs HL Hb Hj) as (u & a & b & ct & d & sk & Hu & Hx & Hf & Hct & _ & HS & Hk & _).
  destruct (live_session HE mt r Hr core lim size Hs St HL a b ct d Hf Hct c sk Hc ms 0%N sk [] HS ltac:(lia) Hm) as (sk' & outs & HS' & Hses & _).
  destruct (live_reuse HE mt r Hr core lim size Hs St HL a b ct d Hf Hct c sk _ sk' [] m1 m2 Hc HS' ltac:(lia) B1 B2) as (s1 & s2 & Hru & Hq).
  rewrite app_nil_r in Hses at 1. exists u. eexists _, _, outs, s1, s2. split; [exact Hu|]. split; [exact Hk|]. split; [exact Hses|]. split; [exact Hru|]. exact Hq.
Qed.

Lemma fast_refused_tool {E : Env} mt rp r pk sk rest m : In rp (rows mt) -> In r (rows mt) ->
  key_of rp (pk_size rp) pk -> key_of r (fast_size r) sk -> (2 ^ N.of_nat (r_h r) <= sk_index r sk)%N ->
  (N.to_nat (junk 0) <= sig_size r + List.length m -> exists u kf', ui_sign mt fast_core true (Some (pk ++ sk ++ rest)) (Some m) = Ok u /\ ui_exit u = 0%Z /\
     completed (pk ++ sk ++ rest) u kf' (firstn (N.to_nat (junk 0)) (uninit (sig_size r + List.length m)))) /\
  (sig_size r + List.length m < N.to_nat (junk 0) -> ui_sign mt fast_core true (Some (pk ++ sk ++ rest)) (Some m) = UB).
Proof.
  intros Hrp Hr Hpk Hsk Hi. destruct (signer_acc mt r Hr fast_core (fast_limit r) (fast_size r) (signer_fast r)) as (Hacc & skb & A1 & A2 & A3 & A4).
  pose proof Hsk as (S1 & S2 & _).
  pose proof (tool_eq mt fast_core rp r (fast_size r) skb pk rest Hrp Hr Hacc A1 A2 A3 Hpk sk m S1 S2) as Hu.
  unfold tool_call in Hu. rewrite (fast_refused mt r Hr _ _ _ _ Hsk Hi) in Hu. cbn [bind so_sk so_sm so_smlen] in Hu.
  set (sk' := firstn 4 sk ++ _) in Hu. assert (Ls' : List.length sk' = 4 + fast_size r).
  { unfold sk'. rewrite !app_length, firstn_length, !repeat_length. unfold sk_size in A4. lia. }
  assert (R1 : rd sk' 4 (fast_size r) = Ok (skipn 4 sk')).
  { unfold rd. destruct (Nat.leb_spec (4 + fast_size r) (List.length sk')) as [_|Hx]; [|lia]. f_equal. apply firstn_all2. rewrite skipn_length. lia. }
  rewrite R1 in Hu. cbn [bind] in Hu. unfold rd in Hu. rewrite uninit_length in Hu. split.
  - intros Hj. destruct (Nat.leb_spec (0 + N.to_nat (junk 0)) (sig_size r + List.length m)) as [_|Hx]; [|lia]. cbn [bind] in Hu. rewrite skipn_O in Hu.
    assert (Hb : List.length pk + 4 + List.length (skipn 4 sk') <= List.length (pk ++ sk ++ rest)) by (rewrite !app_length, skipn_length; lia).
    destruct (flush_reach (pk ++ sk ++ rest) (List.length pk + 4) (skipn 4 sk') (firstn (N.to_nat (junk 0)) (uninit (sig_size r + List.length m))) Hb) as [_ F2].
    eexists _, _. split; [exact Hu|]. split; [reflexivity|]. exact F2.
  - intros Hj. destruct (Nat.leb_spec (0 + N.to_nat (junk 0)) (sig_size r + List.length m)) as [Hx|_]; [lia|]. exact Hu.
Qed.

(** crash histories of the reference core *)
Lemma tools_ref_history {E : Env} (HE : env_ok E) mt r rnd u kf l c : In r (rows mt) -> r_h r < 8 * idx_size r -> (forall i, (rnd i < 256)%N) -> a_core c ->
  ui_keypair mt ref_core (Some (row_name r)) rnd = Ok u -> completed [] u [] kf -> runs mt ref_core kf l ->
  forall j kfj mj sj, nth_error l j = Some (kfj, mj, sj) -> bytes_ok mj ->
    let i := sk_index r (skipn (4 + pk_size r) kfj) in (i + 1 < 2 ^ N.of_nat (r_h r))%N ->
    exists q sg, d_out sj = firstn q (sg ++ mj) /\ List.length sg = sig_size r /\ sm_index r sg = i /\
      ui_open mt c true (Some kf) (Some (sg ++ mj)) = Ok (0%Z, VerificationSucceeded).
Proof.
  intros Hr Hh Hb Hc Hu Hk Hruns j kfj mj sj Hj Bm i Hi.
  destruct (keypair_exact HE mt r (uninit (4 + pk_size r)) (uninit (4 + sk_size r)) rnd Hr Hb (uninit_length _) (uninit_length _)) as (a & b & ct & d & Hf & Hct & _ & Hkp).
  pose proof (keypair_tool mt r rnd _ _ Hr Hkp) as Hu'. assert (u = mkUi 0 [OutWrite (public_key r ct d); OutWrite (secret_key r 0 a b ct d); ExitProc]) by congruence. subst u.
  pose proof (keypair_out _ _ _ Hk) as Ek. subst kf. set (pk := public_key r ct d) in *. set (sk := secret_key r 0 a b ct d) in *.
  pose proof (pk_is_key r a b ct d Hf) as Hpk. fold pk in Hpk. pose proof (secret_key_ok r 0 a b ct d Hf) as Hsk. fold sk in Hsk.
  assert (Lpk : List.length pk = 4 + pk_size r) by apply Hpk. unfold i in *. clear i. rewrite <- Lpk in *.
  rewrite <- (app_nil_r sk) in Hruns.
  destruct (hist_each HE mt r r Hr Hr ref_core _ (sk_size r) pk sk [] l (signer_ref r) Hh Hpk Hsk Hruns j kfj mj sj Hj) as ((skj & o & q & H1 & H2 & H3 & (_ & H4) & H5 & H6 & H7 & H8) & _ & _).
  assert (Hkj : key_of r (sk_size r) skj) by (split; [exact H2|split; [exact H3|now apply H4]]).
  rewrite H5 in Hi. assert (Hi' := Hi). unfold tool_call in H7. rewrite (sign_row HE mt r Hr skj Hkj _ _ mj Hi) in H7 by (rewrite uninit_length; lia).
  assert (HF : forall f, f < 4 -> sk_field r f skj = sk_field r f sk) by (apply H6; lia).
  destruct (fsk_parts r 0 a b ct d [] Hf) as (_ & _ & _ & Q1 & Q2 & Q3 & Q4). rewrite app_nil_r in Q1, Q2, Q3, Q4. fold sk in Q1, Q2, Q3, Q4.
  rewrite !HF, Q1, Q2, Q3, Q4 in H7 by lia. set (sg := mt_sign (row_sp r) a b ct d (sk_index r skj) mj) in *.
  assert (Lsg : List.length sg = sig_size r) by apply (mt_sign_len HE mt r Hr).
  exists q, sg. split; [|split; [exact Lsg|split]].
  - rewrite H8. f_equal. assert (Eo := f_equal (fun v => match v with Ok x => signed_message x | _ => [] end) H7). cbv beta iota in Eo. rewrite <- Eo.
    unfold signed_message. cbn [so_smlen so_sm]. rewrite app_assoc. apply firstn_app_len. rewrite app_length. lia.
  - rewrite H5. unfold sm_index. rewrite <- (app_nil_r sg). unfold sg. rewrite (mt_sign_index r a b ct d), os2ip_toByte. apply N.mod_small. pose proof (pow_h_le mt r Hr). lia.
  - apply (honest_tool HE mt r Hr a b ct d Hf Hct c (sk_index r skj) mj sk Hc ltac:(lia) Bm).
Qed.

(** two crash-stopped runs that released the same index *)
Lemma tools_same_index {E : Env} (HE : env_ok E) mt rp r core lim size pk sk rest l : In rp (rows mt) -> In r (rows mt) -> signer r core lim size -> r_h r < 8 * idx_size r ->
  key_of rp (pk_size rp) pk -> key_of r size sk -> runs mt core (pk ++ sk ++ rest) l ->
  let stored kf := sk_index r (skipn (List.length pk) kf) in
  forall i j kfi mi si kfj mj sj, i < j -> nth_error l i = Some (kfi, mi, si) -> nth_error l j = Some (kfj, mj, sj) ->
  (stored kfi + 1 < 2 ^ N.of_nat (r_h r))%N -> (stored kfj + 1 < 2 ^ N.of_nat (r_h r))%N -> idx_size r <= List.length (d_out si) -> idx_size r <= List.length (d_out sj) ->
  (sm_index r (d_out si) <= sm_index r (d_out sj))%N /\ (sm_index r (d_out si) = sm_index r (d_out sj) -> In KeyClose (d_todo si)).
Proof.
  intros Hrp Hr Hs Hh Hpk Hsk Hruns stored i j kfi mi si kfj mj sj Hij Hi Hj Li Lj Oi Oj.
  destruct (hist_each HE mt rp r Hrp Hr core lim size pk sk rest l Hs Hh Hpk Hsk Hruns i kfi mi si Hi) as (_ & _ & Ei).
  destruct (hist_each HE mt rp r Hrp Hr core lim size pk sk rest l Hs Hh Hpk Hsk Hruns j kfj mj sj Hj) as (_ & _ & Ej).
  destruct (hist_order HE mt rp r Hrp Hr core lim size pk sk rest l Hs Hh Hpk Hsk Hruns i j kfi mi si kfj mj sj Hij Hi Hj) as (O1 & O2).
  fold (stored kfi) in *. fold (stored kfj) in *.
  rewrite (Ei Li Oi), (Ej Lj Oj). split; [exact O1|]. intros Heq.
  destruct (in_dec act_eq_dec KeyClose (d_todo si)) as [Hin|Hnin]; [exact Hin|]. specialize (O2 Hnin ltac:(lia)). lia.
Qed.
