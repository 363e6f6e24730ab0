(** A torn key file with the fast core. *)
From Coq Require Import String.
From Verif Require Import Base Lib ModelUtils ModelParams ModelCore ModelCoreFast ModelCommons ModelXmss ModelUi
  SpecRfc SpecParams SpecApi SpecComp SpecFast SpecUi SpecSec SpecTools ProofUtils ProofHash ProofWots ProofTree ProofCore ProofParams ProofApi ProofHistory ProofMain ProofMain2 ProofUi ProofUi2
  ProofFast1 ProofFast3 ProofFast5 ProofFast6 ProofFast7 ProofForge2 ProofAny ProofBoth ProofUi3 ProofUi4 ProofUi5 ProofUi6 ProofPath ProofCommons ProofSec2.

Section Torn.
Context {E : Env}.
Hypothesis HE : env_ok E.
Variables (mt : bool) (r : row).
Hypothesis Hr : In r (rows mt).
Notation P := (row_sp r).
Notation ib := (idx_size r).
Notation n := (r_n r).
Notation top := (2 ^ N.of_nat (r_h r))%N.
Notation p := (row_params r (sk_ref r)).

Lemma rows_h60 : r_h r <= 60.
Proof.
  assert (Ha : forallb (fun q => r_h q <=? 60) (rows mt) = true) by (destruct mt; vm_compute; reflexivity).
  rewrite forallb_forall in Ha. specialize (Ha r Hr). now apply Nat.leb_le.
Qed.

(** the lowest authentication path in an RFC signature *)
Lemma sig_path a b c d i m rest : firstn (sp_th P * n) (upper_part r (mt_sign P a b c d i m ++ rest)) = concat (auth_path P a d 0 (tree_of P i 0) (leaf_of P i 0)).
Proof.
  unfold upper_part. rewrite firstn_app_len by (now rewrite (mt_sign_len HE mt r Hr)). unfold mt_sign. cbv zeta.
  set (R := PRF P b (toByte i 32)). set (M := H_msg P R c i m).
  pose proof (p_hash HE mt r Hr) as HH. pose proof (p_ok mt r Hr) as Hp. pose proof (sp_of_row r (sk_ref r)) as EP. pose proof (row_n r (sk_ref r)) as En.
  assert (LR : List.length R = n). { unfold R. rewrite <- EP, <- En. apply (PRF_length p (row_hash r) HH). }
  pose proof (po_d p Hp) as Hd. rewrite row_dd in Hd. change (sp_d P) with (r_d r). replace (r_d r) with (S (r_d r - 1)) by lia. cbn [seq map concat].
  unfold layer_sig at 1. cbv zeta. change (N.of_nat 0) with 0%N.
  set (ws := concat (wots_sig P d 0 (tree_of P i 0) (leaf_of P i 0) a (layer_msg P a d M i 0))).
  assert (LW : List.length ws = sp_len P * n).
  { unfold ws. rewrite <- EP, <- En. rewrite (chunked_length (p_n p)) by apply (wots_sig_chunked p (row_hash r) HH). rewrite (wots_sig_length p (row_hash r) Hp), (sp_len_of p (row_hash r) Hp). reflexivity. }
  rewrite <- !app_assoc. rewrite (app_assoc R), (app_assoc (toByte i (sp_ib P))).
  rewrite skipn_app_len by (rewrite !app_length, toByte_length, LR, LW; unfold idx_size; lia).
  apply firstn_app_len. rewrite <- EP, <- En. rewrite (chunked_length (p_n p)) by apply (auth_path_chunked p (row_hash r) Hp HH).
  unfold auth_path. now rewrite map_length, seq_length.
Qed.

Section Live.
Variable St : bytes -> bytes -> bytes -> bytes -> N -> bytes -> Prop.
Hypothesis HL : live mt r fast_core (fast_limit r) (fast_size r) St.
Variables a b ct d : bytes.
Hypothesis Hf : fields r a b ct d.
Hypothesis Hct : ct = mt_root P a d.
Notation pk := (public_key r ct d).

Lemma live_torn c rest0 i sk m : a_core c -> St a b ct d i sk -> (i + 2 < fast_limit r)%N -> bytes_ok m ->
  exists s, runs mt fast_core (pk ++ sk) [(pk ++ sk, m, s)] /\
    sm_index r (d_out s) = i /\ skipn (sig_size r) (d_out s) = m /\
    ui_open mt c true (Some (pk ++ rest0)) (Some (d_out s)) = Ok (0%Z, VerificationSucceeded) /\
    sk_index r (skipn (4 + pk_size r) (d_key s)) = (i + 1)%N /\
    upper_part r (d_out s) = upper_part r (mt_sign P a b ct d i m) /\
    (N.odd i = true -> ((i + 1) mod 2 ^ N.of_nat (sp_th P) <> 0)%N -> forall m2, exists u2 kf2 out2, ui_sign mt fast_core true (Some (d_key s)) (Some m2) = Ok u2 /\ completed (d_key s) u2 kf2 out2) /\
    forall m2 u2 kf2 out2, ui_sign mt fast_core true (Some (d_key s)) (Some m2) = Ok u2 -> completed (d_key s) u2 kf2 out2 ->
      sig_size r <= List.length out2 /\ sm_index r out2 = (i + 1)%N /\ skipn (sig_size r) out2 = m2 /\ upper_part r out2 = upper_part r (d_out s).
Proof.
  intros Hc HS Hi Bm. pose proof (signer_fast r) as Hs. pose proof (limit_le mt r Hr _ _ _ Hs) as Hlim. pose proof (pow_h_le mt r Hr) as Hph.
  destruct (signer_acc mt r Hr _ _ _ Hs) as (Hacc & skb & A1 & A2 & A3 & A4).
  destruct (live_tool HE mt r Hr fast_core _ _ Hs St HL a b ct d Hf i sk [] m HS ltac:(lia)) as (u & sk' & Hu & _ & HS' & _ & _ & _ & Ht).
  assert (Hib : ib <= fast_size r) by (unfold sk_size in A4; lia).
  destruct (Ht ib Hib) as (s & Hcs & Hkey & Hout). rewrite !app_nil_r in *.
  destruct (live_ser _ _ _ _ _ _ HL _ _ _ _ _ _ Hf HS eq_refl) as (ext & Es & Hser).
  destruct (live_shape _ _ _ _ _ _ HL _ _ _ _ _ _ Hf HS') as (Ls' & ext' & Es').
  pose proof Hf as [[La [Lb [Lc Ld]]] _].
  set (tk := torn_key ib sk sk') in *. set (sg := mt_sign P a b ct d i m) in *.
  assert (Lsg : List.length sg = sig_size r) by apply (mt_sign_len HE mt r Hr).
  assert (Etk : tk = secret_key r (i + 1) a b ct d ++ ext).
  { unfold tk, torn_key. rewrite Es, Es'. unfold secret_key. rewrite <- !app_assoc. rewrite !(app_assoc (toByte (r_oid r) 4)).
    rewrite firstn_app_len, skipn_app_len by (rewrite app_length, !toByte_length; reflexivity). rewrite <- !app_assoc. reflexivity. }
  assert (Ltk : List.length tk = 4 + fast_size r).
  { rewrite Etk, app_length, secret_key_length, (ser_len mt r Hr ext Hser), (fast_size_eq mt r Hr) by exact Hf. unfold sk_size. lia. }
  assert (O4 : forall e, firstn 4 (secret_key r (i + 1) a b ct d ++ e) = toByte (r_oid r) 4).
  { intros e. unfold secret_key. rewrite <- app_assoc. apply firstn_app_len. now rewrite toByte_length. }
  assert (Ix : sk_index r tk = (i + 1)%N).
  { rewrite Etk. unfold sk_index, secret_key. rewrite <- !app_assoc, skipn_app_len, firstn_app_len by (now rewrite toByte_length). rewrite os2ip_toByte. apply N.mod_small. lia. }
  assert (Lpk : List.length pk = 4 + pk_size r) by apply (pk_is_key r a b ct d Hf).
  destruct (honest_tool HE mt r Hr a b ct d Hf Hct c i m rest0 Hc ltac:(lia) Bm) as [Q1 Q2]. fold sg in Q1, Q2.
  assert (HX : forall x, sm_index r (mt_sign P a b ct d i m ++ x) = i).
  { intros x. unfold sm_index. rewrite (mt_sign_index r a b ct d), os2ip_toByte. apply N.mod_small. lia. }
  destruct (released_of_ext mt r Hr ext Hser) as (T & HT).
  destruct (live_step _ _ _ _ _ _ HL a b ct d i sk (uninit (sig_size r + List.length m)) (N.to_nat (junk 0)) m Hf HS ltac:(lia)) as (sk1 & _ & Hsg1); [rewrite uninit_length; lia|].
  rewrite Es in Hsg1. assert (Hi1 : (i + 1 < top)%N) by lia. assert (Hi2 : (i + 1 + 1 < top)%N) by lia. pose proof (HT _ _ _ _ _ _ _ _ _ La Lb Lc Ld rows_h60 Hi1 Hsg1) as U1. cbn [so_sm] in U1. fold sg in U1. rewrite (released_upper mt r Hr) in U1.
  assert (Uu : forall x, upper_part r (sg ++ x) = upper_part r sg).
  { intros x. unfold upper_part. rewrite firstn_app_len by now symmetry. rewrite (firstn_all2 sg) by lia. reflexivity. }
  rewrite Uu in U1.
  exists s. split; [eapply runs_cons; [exact Hu|exact Hcs|constructor]|]. rewrite Hout. split; [apply HX|]. split; [exact Q1|]. split; [exact Q2|].
  split; [rewrite Hkey, skipn_app_len by (symmetry; exact Lpk); exact Ix|]. split; [apply Uu|]. rewrite Hkey.
  assert (Otk : firstn 4 tk = toByte (r_oid r) 4) by (rewrite Etk; apply O4).
  assert (Hky : keyish r tk).
  { apply mk_keyish; [exact Ltk|exact Otk|]. rewrite Etk. unfold secret_key. rewrite <- !app_assoc, app_assoc. rewrite firstn_app_len by (rewrite app_length, !toByte_length; reflexivity). rewrite bytes_ok_app. split; apply toByte_ok. }
  split.
  { intros Hodd Hend m2. destruct (live_behind _ _ _ _ _ _ HL a b ct d i sk ext (uninit (sig_size r + List.length m2)) (N.to_nat (junk 0)) m2 Hf HS eq_refl Es ltac:(lia) Hodd Hend) as (o & Ho); [rewrite uninit_length; lia|].
    rewrite <- Etk in Ho. rewrite <- (app_nil_r tk).
    pose proof (tool_eq mt fast_core r r (fast_size r) skb pk [] Hr Hr Hacc A1 A2 A3 (pk_is_key r a b ct d Hf) tk m2 Ltk Otk) as Hu2. unfold tool_call in Hu2. rewrite Ho, bind_ok in Hu2.
    destruct (any_step mt r Hr tk (mkCall m2 (uninit (sig_size r + List.length m2)) (N.to_nat (junk 0))) o Hky Ho) as ((K1 & _) & [(Hge & _)|(_ & (_ & G2 & G3 & _) & _)]).
    { rewrite Ix in Hge. lia. }
    cbn [c_m c_sm c_smlen] in *. rewrite uninit_length in G3.
    rewrite (rd_ok (so_sk o)) in Hu2 by lia. rewrite bind_ok in Hu2. rewrite (rd_ok (so_sm o)) in Hu2 by lia. rewrite bind_ok in Hu2.
    eexists _, _, _. split; [exact Hu2|]. unfold completed, crash_state. cbn [ui_acts].
    apply flush_reach. rewrite !app_length, firstn_length, skipn_length, K1, Ltk. cbn [List.length]. lia. }
  intros m2 u2 kf2 out2 Hu2 Hc2. rewrite <- (app_nil_r tk) in Hu2, Hc2.
  rewrite (tool_eq mt fast_core r r (fast_size r) skb pk [] Hr Hr Hacc A1 A2 A3 (pk_is_key r a b ct d Hf) tk m2 Ltk Otk) in Hu2.
  apply bind_inv in Hu2. destruct Hu2 as (o & Ho & Hu2). apply bind_inv in Hu2. destruct Hu2 as (dd & Hd & Hu2). apply bind_inv in Hu2. destruct Hu2 as (sm & Hsm & Hu2).
  assert (Eu : u2 = mkUi 0 [KeyWrite (List.length pk + 4) dd; OutWrite sm; KeyClose; ExitProc]) by congruence. subst u2.
  apply rd_inv in Hd. destruct Hd as [_ Ldd]. apply rd_inv in Hsm. destruct Hsm as [Esm Lsm]. rewrite skipn_O in Esm.
  assert (Hb : List.length pk + 4 + List.length dd <= List.length (pk ++ tk ++ [])) by (rewrite !app_length; cbn [List.length]; lia).
  destruct (completed_unique _ _ _ _ _ _ Hb Hc2) as [_ ->].
  unfold tool_call in Ho.
  destruct (any_step mt r Hr tk (mkCall m2 (uninit (sig_size r + List.length m2)) (N.to_nat (junk 0))) o Hky Ho) as (_ & [(Hge & _)|(_ & (_ & G2 & G3 & G4 & G5) & _)]).
  { rewrite Ix in Hge. lia. }
  cbn [c_m c_sm c_smlen] in *. rewrite uninit_length in G3. rewrite Esm.
  rewrite Etk in Ho. pose proof (HT _ _ _ _ _ _ _ _ _ La Lb Lc Ld rows_h60 Hi2 Ho) as U2. rewrite (released_upper mt r Hr) in U2.
  split; [rewrite <- Esm; lia|]. split; [|split; [exact G5|]].
  - rewrite <- Ix, <- G4. unfold sm_index. rewrite firstn_firstn, Nat.min_l; [reflexivity|]. rewrite G2.
    pose proof (po_sig _ (p_ok mt r Hr)) as X. rewrite (p_sig r), (p_ib r) in X. lia.
  - rewrite Uu, U1, <- U2. unfold upper_part. rewrite firstn_firstn, Nat.min_l by lia. reflexivity.
Qed.
End Live.

(** a signature that shows the path of another leaf is not accepted, unless the hash is broken *)
Lemma stale_rejected a b ct d c rest0 i out m' : fields r a b ct d -> ct = mt_root P a d -> a_core c -> (i + 1 < top)%N -> bytes_ok out -> bytes_ok m' ->
  sig_size r <= List.length out -> sm_index r out = (i + 1)%N ->
  firstn (sp_th P * n) (upper_part r out) = concat (auth_path P a d 0 (tree_of P i 0) (leaf_of P i 0)) ->
  ui_open mt c true (Some (public_key r ct d ++ rest0)) (Some out) = Ok (0%Z, VerificationSucceeded) ->
  let honest := mt_sign P a b ct d (i + 1) m' in
  let q1 := verify_queries P d ct honest m' in let q2 := verify_queries P d ct (firstn (sig_size r) out) (skipn (sig_size r) out) in
  leaf P a d 0 (tree_of P i 0) (sibling (leaf_of P i 0)) = leaf P a d 0 (tree_of P (i + 1) 0) (sibling (leaf_of P (i + 1) 0)) \/
  collision P d q1 q2 \/ 1 < r_d r /\ preimage P d ct honest m' q1 q2.
Proof.
  intros Hf Hct Hc Hi Bo Bm' Lo Io Hp Ho. cbv zeta. pose proof Hf as [[La [Lb [Lc Ld]]] _]. pose proof (pk_is_key r a b ct d Hf) as Hk.
  set (pk := public_key r ct d) in *. set (sg := mt_sign P a b ct d (i + 1) m').
  assert (Lsg : List.length sg = sig_size r) by apply (mt_sign_len HE mt r Hr).
  assert (Bsg : bytes_ok (sg ++ m')) by (apply bytes_ok_app; split; [apply (mt_sign_bytes HE mt r Hr a b ct d)|exact Bm']).
  destruct (open_decides HE mt r c (uninit (List.length out)) (N.to_nat (junk 0)) out pk Hr Hc Hk Lo Bo) as (oo & Hoo & _); [now rewrite uninit_length|].
  pose proof (open_tool mt r c pk rest0 out _ _ Hr Hc Hk eq_refl eq_refl oo Hoo) as Hx. rewrite Ho in Hx.
  assert (Hrc : oo_rc oo = 0%Z) by (apply (f_equal (fun v => match v with Ok (z, _) => z | _ => 7%Z end)) in Hx; now symmetry).
  destruct (honest_opens HE mt r Hr a b ct d Hf Hct c (i + 1) m' (uninit (sig_size r + List.length m')) 0 Hc ltac:(lia) Bm') as (oh & Hoh & Rh & _); [rewrite uninit_length; lia|]. fold sg pk in Hoh.
  assert (Ipk : firstn n (skipn 4 pk) = ct /\ skipn (4 + n) pk = d).
  { unfold pk, public_key. split.
    - rewrite skipn_app_len by (now rewrite toByte_length). now apply firstn_app_len.
    - rewrite app_assoc. apply skipn_app_len. rewrite app_length, toByte_length. lia. }
  destruct Ipk as [Ipk1 Ipk2].
  assert (Isg : sm_index r (sg ++ m') = sm_index r out).
  { rewrite Io. unfold sm_index, sg. rewrite (mt_sign_index r a b ct d), os2ip_toByte. apply N.mod_small. pose proof (pow_h_le mt r Hr). lia. }
  assert (Tail : firstn (sp_th P * n) (upper_part r (sg ++ m')) = firstn (sp_th P * n) (upper_part r out) ->
    leaf P a d 0 (tree_of P i 0) (sibling (leaf_of P i 0)) = leaf P a d 0 (tree_of P (i + 1) 0) (sibling (leaf_of P (i + 1) 0))).
  { intros Hres. rewrite Hp in Hres. unfold sg in Hres. rewrite sig_path in Hres.
    assert (Hth0 : sp_th P <> 0) by (pose proof (po_th _ (p_ok mt r Hr)) as Hx1; rewrite (p_th r) in Hx1; lia).
    unfold auth_path in Hres. destruct (sp_th P) as [|t]; [congruence|]. cbn [seq map concat] in Hres.
    assert (LN : forall T x, List.length (node P a d 0 T 0 x) = n). { intros T x. rewrite <- (sp_of_row r (sk_ref r)), <- (row_n r (sk_ref r)). apply (node_length p (row_hash r) (p_ok mt r Hr) (p_hash HE mt r Hr)). }
    apply (f_equal (firstn n)) in Hres. rewrite !firstn_app_len in Hres by now rewrite LN.
    change (2 ^ N.of_nat 0)%N with 1%N in Hres. rewrite !N.div_1_r in Hres. symmetry in Hres. exact Hres. }
  destruct (Nat.eq_dec (r_d r) 1) as [Hd1|Hd1].
  - destruct (accepted_paths HE mt r c c (uninit (sig_size r + List.length m')) (uninit (List.length out)) 0 (N.to_nat (junk 0)) (sg ++ m') out pk oh oo Hr Hc Hc Hk) as [Hres _];
      [rewrite app_length; lia|exact Lo|exact Bsg|exact Bo| | |exact Hoh|exact Rh|exact Hoo|exact Hrc|exact Isg|].
    { rewrite uninit_length, app_length. lia. } { now rewrite uninit_length. }
    cbv zeta in Hres. rewrite Ipk1, Ipk2, firstn_app_len, skipn_app_len in Hres by now symmetry.
    destruct Hres as [Hres|Hres]; [left|right; left; exact Hres].
    assert (Hla : forall x, layer_auth P (firstn (sig_size r) x) (r_d r - 1) = firstn (sp_th P * n) (upper_part r x)).
    { intros x. unfold layer_auth, upper_part. rewrite Hd1. cbn [Nat.sub Nat.mul]. rewrite skipn_O, skipn_skipn. change (sp_n P) with n. f_equal. f_equal. unfold idx_size. lia. }
    apply Tail. rewrite <- !Hla. rewrite firstn_app_len by now symmetry. exact Hres.
  - destruct (list_eq_dec N.eq_dec (sg ++ m') out) as [Heq|Hne].
    + left. apply Tail. now rewrite Heq.
    + right. pose proof (two_openings HE mt r Hr c c (uninit (sig_size r + List.length m')) (uninit (List.length out)) 0 (N.to_nat (junk 0)) (sg ++ m') out pk oh oo Hc Hc Hk) as Hres.
      specialize (Hres ltac:(rewrite app_length; lia) Lo Bsg Bo). rewrite !uninit_length, app_length in Hres. specialize (Hres ltac:(lia) ltac:(lia) Hoh Rh Hoo Hrc Isg Hne).
      cbv zeta in Hres. rewrite Ipk1, Ipk2, firstn_app_len, skipn_app_len in Hres by now symmetry.
      destruct Hres as [Hres|Hres]; [left; exact Hres|right]. split; [|exact Hres]. pose proof (po_d _ (p_ok mt r Hr)) as Hx1. rewrite row_dd in Hx1. lia.
Qed.

Lemma tools_torn_fast rnd ms c m : (forall i, (rnd i < 256)%N) -> bytes_ok (uninit (4 + fast_size r)) -> a_core c ->
  let i := N.of_nat (List.length ms) in (i + 2 < fast_limit r)%N -> Forall bytes_ok ms -> bytes_ok m ->
  let sks := map rnd (seq 0 n) in let seed := map rnd (seq (2 * n) n) in
  exists u kf kf' outs s, ui_keypair mt fast_core (Some (row_name r)) rnd = Ok u /\ completed [] u [] kf /\ session mt fast_core kf ms kf' outs /\
    runs mt fast_core kf' [(kf', m, s)] /\
    sm_index r (d_out s) = i /\ skipn (sig_size r) (d_out s) = m /\ ui_open mt c true (Some kf) (Some (d_out s)) = Ok (0%Z, VerificationSucceeded) /\
    sk_index r (skipn (4 + pk_size r) (d_key s)) = (i + 1)%N /\
    (N.odd i = true -> ((i + 1) mod 2 ^ N.of_nat (sp_th P) <> 0)%N -> forall m2, exists u2 kf2 out2, ui_sign mt fast_core true (Some (d_key s)) (Some m2) = Ok u2 /\ completed (d_key s) u2 kf2 out2) /\
    forall m2 u2 kf2 out2, ui_sign mt fast_core true (Some (d_key s)) (Some m2) = Ok u2 -> completed (d_key s) u2 kf2 out2 ->
      sm_index r out2 = (i + 1)%N /\ skipn (sig_size r) out2 = m2 /\ upper_part r out2 = upper_part r (d_out s) /\
      firstn (sp_th P * n) (upper_part r out2) = concat (auth_path P sks seed 0 (tree_of P i 0) (leaf_of P i 0)) /\
      (bytes_ok out2 -> ui_open mt c true (Some kf) (Some out2) = Ok (0%Z, VerificationSucceeded) -> forall m', bytes_ok m' ->
       let rt := mt_root P sks seed in let honest := mt_sign P sks (map rnd (seq n n)) rt seed (i + 1) m' in
       let q1 := verify_queries P seed rt honest m' in let q2 := verify_queries P seed rt (firstn (sig_size r) out2) (skipn (sig_size r) out2) in
       leaf P sks seed 0 (tree_of P i 0) (sibling (leaf_of P i 0)) = leaf P sks seed 0 (tree_of P (i + 1) 0) (sibling (leaf_of P (i + 1) 0)) \/
       collision P seed q1 q2 \/ 1 < r_d r /\ preimage P seed rt honest m' q1 q2).
Proof.
  intros Hb Hj Hc i Hn Hm Bm sks seed. pose proof (signer_fast r) as Hs. destruct (signer_live HE mt r Hr _ _ _ Hs) as (St & HL).
  destruct (tool_key mt r Hr _ _ _ St rnd Hs HL Hb Hj) as (u & a & b & ct & d & sk & Hu & Hx & Hf & Hct & Hmat & HS & Hk & _).
  destruct (live_session HE mt r Hr _ _ _ Hs St HL a b ct d Hf Hct c sk Hc ms 0%N sk [] HS ltac:(unfold i in Hn; lia) Hm) as (sk' & outs & HS' & Hses & _).
  rewrite N.add_0_l in HS'. fold i in HS'. rewrite !app_nil_r in Hses.
  destruct (live_torn St HL a b ct d Hf Hct c sk i sk' m Hc HS' Hn Bm) as (s & R1 & R2 & R3 & R4 & R5 & R6 & RX & R7).
  exists u. eexists _, _, outs, s. split; [exact Hu|]. split; [exact Hk|]. split; [exact Hses|]. split; [exact R1|]. split; [exact R2|]. split; [exact R3|]. split; [exact R4|]. split; [exact R5|]. split; [exact RX|].
  intros m2 u2 kf2 out2 H1 H2. destruct (R7 m2 u2 kf2 out2 H1 H2) as (V0 & V1 & V2 & V3). split; [exact V1|]. split; [exact V2|]. split; [exact V3|].
  unfold key_material in Hmat. cbv zeta in Hmat.
  assert (Ea : a = sks) by (unfold sks; congruence). assert (Ed : d = seed) by (unfold seed; congruence).
  assert (Eb : b = map rnd (seq n n)) by congruence.
  assert (Hpath : firstn (sp_th P * n) (upper_part r out2) = concat (auth_path P sks seed 0 (tree_of P i 0) (leaf_of P i 0))).
  { rewrite V3, R6. rewrite <- (app_nil_r (mt_sign P a b ct d i m)). rewrite sig_path. now rewrite Ea, Ed. }
  split; [exact Hpath|]. intros Bo Hop m' Bm'. cbv zeta. rewrite <- Ea, <- Ed, <- Eb in *. rewrite <- Hct.
  apply (stale_rejected a b ct d c sk i out2 m' Hf Hct Hc); try assumption.
  - pose proof (limit_le mt r Hr _ _ _ Hs). lia.
Qed.
End Torn.
