(** Histories of the fast core: from any invariant of the traversal data (proved for XMSS in
    ProofFast3, for XMSSMT in the ProofMt files) follow the API level properties. *)
From Verif Require Import Base ModelUtils ModelParams ModelCommons ModelCore ModelCoreFast ModelXmss.
From Verif Require Import SpecRfc SpecFips202 SpecParams SpecApi SpecComp SpecFast Lib ProofUtils ProofHash ProofCore ProofParams ProofApi ProofHistory ProofMain ProofMain2.
From Verif Require Import ProofWots ProofCommons ProofTree ProofSched ProofBds1 ProofBds2 ProofBds3 ProofBds4 ProofFast1 ProofFast2 ProofFast3 ProofFast4 ProofFast5.

Section FLife.
Context {E : Env}.
Hypothesis HE : env_ok E.
Variable (mt : bool) (r : row).
Hypothesis Hr : In r (rows mt).
Notation p := (row_params r (sk_fast r)).
Notation P := (row_sp r).
Notation n := (r_n r).
Notation ib := (idx_size r).
Notation z := (repeat 0%N n).
Notation lim := (2 ^ N.of_nat (r_h r))%N.
Notation top := (256 ^ N.of_nat ib)%N.

Lemma flav : mt = true \/ r_d r = 1.
Proof. destruct mt; [now left|right]. exact (proj1 (xr_facts r Hr)). Qed.
Lemma row_n' : p_n p = n. Proof. apply Nat2N.id. Qed.
Lemma row_d' : p_d p = r_d r. Proof. apply Nat2N.id. Qed.
Lemma fp_sk' : ModelParams.sk_bytes p = index_bytes p + 4 * p_n p + ser_bytes p.
Proof. rewrite (fp_sk mt r Hr), fp_ib, row_n'. reflexivity. Qed.
Lemma ser_len ext : ser_image p ext -> length ext = ser_bytes p.
Proof.
  intros (ss & ws & -> & Hss & Hws). rewrite app_length, Hws.
  rewrite (store_states_length p (fp_kH mt r Hr) (fp_H30 mt r Hr) (fp_d mt r Hr)) by apply Hss. destruct Hss as (-> & _). reflexivity.
Qed.
Lemma ser_bytes_ok ext : length ext = ser_bytes p -> bytes_ok ext -> ser_image p ext.
Proof.
  intros L B. destruct (ser_of_bytes p (fp_kH mt r Hr) (fp_H30 mt r Hr) (fp_d mt r Hr) ext L B) as (ss & ws & He & Hss & Hws).
  exists ss, ws. auto.
Qed.
Lemma fsg_fsign x sm smlen m : fsg mt p x sm smlen m = fsign p mt x sm smlen m.
Proof. destruct mt; reflexivity. Qed.
Lemma top_repeat k : toByte (256 ^ N.of_nat k - 1) k = repeat 255%N k.
Proof.
  rewrite <- (toByte_os2ip (repeat 255%N k)) by (apply Forall_forall; intros x Hx; apply repeat_spec in Hx; subst; reflexivity). rewrite repeat_length. f_equal.
  induction k as [|k IH]; [reflexivity|]. cbn [repeat]. rewrite os2ip_cons, <- IH, repeat_length, pow256_S. pose proof (pow256_pos (N.of_nat k)). lia.
Qed.

Lemma fdead i a b c d ext sm smlen m : length a = n -> length b = n -> length c = n -> length d = n -> ser_image p ext -> (lim <= i < top)%N ->
  sign mt fast_core (secret_key r i a b c d ++ ext) sm smlen m =
  Ok (mkSign (-2) (secret_key r (top - 1) z z z z ++ repeat 0%N (ser_bytes p)) sm smlen).
Proof.
  intros La Lb Lc Ld Hs Hi. rewrite <- !layout_ext, (fsign_eq mt r Hr), fsg_fsign.
  pose proof (fast_exhausted p (fp_ok mt r Hr) (fp_kH mt r Hr) fp_sk' a b c d ext) as Hx. rewrite row_n', (fp_ib r), (fp_h r) in Hx.
  assert (Hm : mt = true \/ ib = 4).
  { destruct flav as [?|Hd]; [now left|right]. unfold idx_size, sp_ib. change (sp_d P) with (r_d r). now rewrite Hd. }
  rewrite Hx; try assumption; [|now apply ser_len]. rewrite bind_ok. cbn [so_rc so_sk so_sm so_smlen]. now rewrite top_repeat.
Qed.

(** everything after the index in the last signature *)
Definition last_tail (m : bytes) : bytes :=
  let idx := (lim - 1)%N in
  let R := PRF P z (toByte idx 32) in
  R ++ concat (wots_sig P z 0 (tree_of P idx 0) (leaf_of P idx 0) z (H_msg P R z idx m)) ++
  repeat 0%N (sp_th P * n + (r_d r - 1) * (sp_len P * n + sp_th P * n)).
Lemma flast a b c d ext sm smlen m : length a = n -> length b = n -> length c = n -> length d = n -> ser_image p ext ->
  sig_size r + length m <= length sm ->
  exists ext', ser_image p ext' /\
  sign mt fast_core (secret_key r (lim - 1) a b c d ++ ext) sm smlen m =
  Ok (mkSign 0 (secret_key r lim z z z z ++ ext')
       ((toByte (lim - 1) ib ++ last_tail m) ++ m ++ skipn (sig_size r + length m) sm) (sig_size r + length m)).
Proof.
  intros La Lb Lc Ld Hs Hm.
  pose proof (fast_last p (row_hash r) (fp_ok mt r Hr) (fp_hash HE mt r Hr) (fp_kH mt r Hr) fp_sk' a b c d ext) as Hx.
  rewrite row_n', (fp_ib r), (fp_h r), (fp_sig r), row_d', (fp_th r) in Hx.
  destruct (Hx La Lb Lc Ld (ser_len ext Hs) Hs mt sm smlen m flav Hm) as (ext' & _ & Hs' & He).
  exists ext'. split; [exact Hs'|]. rewrite <- !layout_ext, (fsign_eq mt r Hr), fsg_fsign, He, bind_ok. cbn [so_rc so_sk so_sm so_smlen].
  rewrite sp_of_row. rewrite (po_wsig p (fp_ok mt r Hr)), (fp_len r), row_n'. unfold last_tail. cbv zeta. rewrite <- !app_assoc. reflexivity.
Qed.

Lemma fsk_parts i a b c d ext : fields r a b c d ->
  let sk := secret_key r i a b c d ++ ext in
  length sk = 4 + sk_size r + length ext /\ firstn 4 sk = toByte (r_oid r) 4 /\ sk_index r sk = (i mod top)%N /\
  sk_field r 0 sk = a /\ sk_field r 1 sk = b /\ sk_field r 2 sk = c /\ sk_field r 3 sk = d.
Proof.
  intros Hf sk. pose proof Hf as [[La [Lb [Lc Ld]]] _].
  assert (Hl : length (secret_key r i a b c d) = 4 + ib + 4 * n) by (unfold secret_key; rewrite !app_length, !toByte_length; lia).
  assert (Hsf : forall i', i' < 4 -> sk_field r i' (secret_key r i a b c d ++ ext) = sk_field r i' (secret_key r i a b c d)).
  { intros i' Hi. unfold sk_field. rewrite skipn_app, firstn_app.
    assert (Hin : i' * n <= 3 * n) by (apply Nat.mul_le_mono_r; lia).
    rewrite skipn_length, Hl. replace (n - (4 + ib + 4 * n - (4 + ib + i' * n))) with 0 by (clear - Hin; lia). cbn [firstn]. apply app_nil_r. }
  split; [unfold sk; rewrite app_length, Hl; unfold sk_size; lia|].
  split; [unfold sk, secret_key; rewrite <- app_assoc; apply firstn_app_len; now rewrite toByte_length|].
  split.
  - unfold sk, sk_index, secret_key. rewrite <- app_assoc, skipn_app_len by (now rewrite toByte_length). rewrite <- app_assoc, firstn_app_len by (now rewrite toByte_length).
    now rewrite os2ip_toByte.
  - unfold sk. rewrite !Hsf by lia. exact (secret_key_fields r i a b c d Hf).
Qed.

(** ** Whole histories *)
Variable G : bytes -> bytes -> N -> bytes -> Prop.
Hypothesis Gser : forall sks seed i ext, length sks = n -> length seed = n -> G sks seed i ext -> ser_image p ext.
Hypothesis Gkey : forall pk sk rnd, length pk = 4 + pk_size r -> length sk = 4 + fast_size r -> bytes_ok sk ->
  let sks := map rnd (seq 0 n) in let prfk := map rnd (seq n n) in let seed := map rnd (seq (2 * n) n) in
  let rt := mt_root P sks seed in
  exists ext, G sks seed 0%N ext /\
  keypair mt fast_core pk sk (r_oid r) rnd = Ok (0%Z, public_key r rt seed, secret_key r 0 sks prfk rt seed ++ ext).

Lemma fkey_mat pk0 sk0 rnd : (forall i, (rnd i < 256)%N) -> length pk0 = 4 + pk_size r -> length sk0 = 4 + fast_size r -> bytes_ok sk0 ->
  exists a b c d ext, fields r a b c d /\ c = mt_root P a d /\ key_material r rnd = (a, b, c, d) /\ G a d 0%N ext /\
    keypair mt fast_core pk0 sk0 (r_oid r) rnd = Ok (0%Z, public_key r c d, secret_key r 0 a b c d ++ ext).
Proof.
  intros Hb Hpk Hsk Bsk. destruct (Gkey pk0 sk0 rnd Hpk Hsk Bsk) as (ext & HG & Hkp). cbv zeta in *.
  assert (HL : forall s, length (map rnd (seq s n)) = n) by (intros; now rewrite map_length, seq_length).
  set (a := map rnd (seq 0 n)) in *. set (d := map rnd (seq (2 * n) n)) in *. set (b := map rnd (seq n n)) in *.
  destruct (root_facts HE mt r a d Hr) as [Lr Br].
  exists a, b, (mt_root P a d), d, ext. split; [|split; [|split; [|split]]]; try reflexivity; try assumption.
  split; repeat split; try apply HL; try assumption; apply rand_bytes; exact Hb.
Qed.

Section Whole.
Hypothesis Gstep : forall sks prfk rt seed, length sks = n -> length prfk = n -> length rt = n -> length seed = n ->
  forall i ext sm smlen m, G sks seed i ext -> (i + 1 < lim)%N -> sig_size r + length m <= length sm ->
  exists ext', G sks seed (i + 1)%N ext' /\
  fsg mt p (sk_layout (toByte i ib) sks prfk rt seed ext) sm smlen m =
  Ok (mkSign 0 (sk_layout (toByte (i + 1) ib) sks prfk rt seed ext')
       (mt_sign P sks prfk rt seed i m ++ m ++ skipn (sig_size r + length m) sm) (sig_size r + length m)).
Section Key.
Variables a b c d : bytes.
Hypothesis La : length a = n.
Hypothesis Lb : length b = n.
Hypothesis Lc : length c = n.
Hypothesis Ld : length d = n.
Definition finv (k : N) (sk : bytes) : Prop :=
  ((k < lim)%N /\ exists ext, G a d k ext /\ sk = secret_key r k a b c d ++ ext) \/
  ((lim <= k)%N /\ exists i ext, (lim <= i < top)%N /\ ser_image p ext /\ sk = secret_key r i z z z z ++ ext).
Definition fout (k : N) (x : call) (o : sign_out) : Prop :=
  ((k + 1 < lim)%N -> so_rc o = 0%Z /\ so_smlen o = sig_size r + length (c_m x) /\
     so_sm o = mt_sign P a b c d k (c_m x) ++ c_m x ++ skipn (sig_size r + length (c_m x)) (c_sm x)) /\
  ((k + 1 = lim)%N -> so_rc o = 0%Z /\ so_smlen o = sig_size r + length (c_m x) /\
     so_sm o = (toByte (lim - 1) ib ++ last_tail (c_m x)) ++ c_m x ++ skipn (sig_size r + length (c_m x)) (c_sm x)) /\
  ((lim <= k)%N -> o = mkSign (-2) (secret_key r (top - 1) z z z z ++ repeat 0%N (ser_bytes p)) (c_sm x) (c_smlen x)).
Lemma ser_zero : ser_image p (repeat 0%N (ser_bytes p)).
Proof. apply ser_bytes_ok; [apply repeat_length|]. apply Forall_forall. intros x Hx. apply repeat_spec in Hx. subst. reflexivity. Qed.
Lemma finv_step : r_h r < 8 * ib -> forall k sk x, finv k sk -> call_ok r x ->
  exists o, sign mt fast_core sk (c_sm x) (c_smlen x) (c_m x) = Ok o /\ fout k x o /\ finv (k + 1) (so_sk o).
Proof.
  intros Hw k sk x Hinv Hx. pose proof (ProofTree.pow2_pos (r_h r)) as Hpos.
  assert (Hlt : (lim < top)%N) by (rewrite pow256_pow2; apply N.pow_lt_mono_r; lia).
  destruct Hinv as [[Hk (ext & HG & ->)]|[Hk (i & ext & Hi & Hs & ->)]].
  - destruct (N.eq_dec (k + 1) lim) as [He|Hne].
    + assert (Hk' : k = (lim - 1)%N) by lia. rewrite Hk' in *. 
      destruct (flast a b c d ext (c_sm x) (c_smlen x) (c_m x) La Lb Lc Ld (Gser a d _ ext La Ld HG) Hx) as (ext' & Hs' & Hsg).
      eexists. split; [exact Hsg|]. split.
      * split; [intros; lia|]. split; [intros _; auto|intros; lia].
      * right. split; [lia|]. exists lim, ext'. split; [lia|]. auto.
    + destruct (fstep_live mt r Hr a b c d (G a d) lim (Gstep a b c d La Lb Lc Ld) k ext x HG ltac:(lia) Hx) as (ext' & HG' & Hsg).
      eexists. split; [exact Hsg|]. split.
      * split; [intros _; auto|]. split; intros; lia.
      * left. split; [lia|]. exists ext'. auto.
  - pose proof (fdead i z z z z ext (c_sm x) (c_smlen x) (c_m x) (repeat_length _ _) (repeat_length _ _) (repeat_length _ _) (repeat_length _ _) Hs Hi) as Hsg.
    eexists. split; [exact Hsg|]. split.
    + split; [intros; lia|]. split; [intros; lia|]. reflexivity.
    + right. split; [lia|]. exists (top - 1)%N, (repeat 0%N (ser_bytes p)). split; [lia|]. split; [apply ser_zero|reflexivity].
Qed.
End Key.

Lemma fast_life rnd pk0 sk0 cs pk sk : r_h r < 8 * ib -> (forall i, (rnd i < 256)%N) ->
  length pk0 = 4 + pk_size r -> length sk0 = 4 + fast_size r -> bytes_ok sk0 ->
  keypair mt fast_core pk0 sk0 (r_oid r) rnd = Ok (0%Z, pk, sk) -> Forall (call_ok r) cs ->
  let a := sk_field r 0 sk in let b := sk_field r 1 sk in let c := sk_field r 2 sk in let d := sk_field r 3 sk in
  exists sk' os, sign_run mt fast_core sk cs = Ok (sk', os) /\ length os = length cs /\
    (forall k x o, nth_error cs k = Some x -> nth_error os k = Some o ->
       ((N.of_nat k < lim)%N -> so_rc o = 0%Z /\ so_smlen o = sig_size r + length (c_m x) /\ sm_index r (so_sm o) = N.of_nat k) /\
       ((N.of_nat k + 1 < lim)%N -> signed_message o = mt_sign P a b c d (N.of_nat k) (c_m x) ++ c_m x) /\
       ((lim <= N.of_nat k)%N -> so_rc o = (-2)%Z /\ so_sm o = c_sm x /\ so_smlen o = c_smlen x)).
Proof.
  intros Hw Hb Hpk Hsk Bsk Hkp Hok.
  destruct (fkey_mat pk0 sk0 rnd Hb Hpk Hsk Bsk) as (a & b & c & d & ext & Hf & Hct & _ & HG & Hkp'). assert (Esk : sk = secret_key r 0 a b c d ++ ext) by congruence. subst sk.
  pose proof Hf as [[La [Lb [Lc Ld]]] [Ba [Bb [Bc Bd]]]].
  cbv zeta. destruct (fsk_parts 0 a b c d ext Hf) as (_ & _ & _ & Q1 & Q2 & Q3 & Q4). 
  rewrite Q1, Q2, Q3, Q4.
  assert (H0 : finv a b c d 0 (secret_key r 0 a b c d ++ ext)).
  { left. split; [pose proof (ProofTree.pow2_pos (r_h r)); lia|]. exists ext. auto. }
  destruct (run_inv mt fast_core (finv a b c d) (call_ok r) (fout a b c d) (finv_step a b c d La Lb Lc Ld Hw) cs 0%N _ H0 Hok)
    as [sk' [os [Hrun [Hl [_ Hn]]]]].
  exists sk', os. split; [exact Hrun|]. split; [exact Hl|]. intros k x o Hx Hk.
  destruct (Hn k x Hx) as [o' [Ho' Hout]]. rewrite Hk in Ho'. injection Ho' as <-. rewrite N.add_0_l in Hout.
  destruct Hout as [O2 [O3 O4]].
  assert (Hsl : forall i m, length (mt_sign P a b c d i m) = sig_size r).
  { intros i m. rewrite <- (p_sig r), <- (sp_of_row r (sk_ref r)). apply (mt_sign_length _ _ (p_ok mt r Hr) (p_hash HE mt r Hr)). }
  pose proof (pow_h_le mt r Hr) as Hle.
  split; [|split].
  - intros Hk2. destruct (N.eq_dec (N.of_nat k + 1) lim) as [He|Hne].
    + destruct (O3 He) as (R1 & R2 & R3). split; [exact R1|]. split; [exact R2|]. rewrite R3. unfold sm_index.
      rewrite <- app_assoc, firstn_app_len, os2ip_toByte by (now rewrite toByte_length). rewrite N.mod_small by lia. lia.
    + destruct (O2 ltac:(lia)) as (R1 & R2 & R3). split; [exact R1|]. split; [exact R2|]. rewrite R3. unfold sm_index.
      rewrite (mt_sign_index r a b c d), os2ip_toByte. apply N.mod_small. lia.
  - intros Hk2. destruct (O2 Hk2) as (R1 & R2 & R3). unfold signed_message. rewrite R2, R3, app_assoc. apply firstn_app_len. rewrite app_length, Hsl. reflexivity.
  - intros Hk2. rewrite (O4 Hk2). auto.
Qed.

Lemma fast_no_reuse rnd pk0 sk0 cs pk sk : r_h r < 8 * ib -> (forall i, (rnd i < 256)%N) ->
  length pk0 = 4 + pk_size r -> length sk0 = 4 + fast_size r -> bytes_ok sk0 ->
  keypair mt fast_core pk0 sk0 (r_oid r) rnd = Ok (0%Z, pk, sk) -> Forall (call_ok r) cs ->
  exists sk' os, sign_run mt fast_core sk cs = Ok (sk', os) /\ length os = length cs /\
    forall i j oi oj, i < j -> nth_error os i = Some oi -> nth_error os j = Some oj ->
      so_rc oi = 0%Z -> so_rc oj = 0%Z -> sm_index r (so_sm oi) <> sm_index r (so_sm oj).
Proof.
  intros Hw Hb Hpk Hsk Bsk Hkp Hok. destruct (fast_life rnd pk0 sk0 cs pk sk Hw Hb Hpk Hsk Bsk Hkp Hok) as (sk' & os & H1 & H2 & H3). cbv zeta in *.
  exists sk', os. split; [exact H1|]. split; [exact H2|]. intros i j oi oj Hij Hi Hj Ri Rj He.
  assert (Hg : forall k o, nth_error os k = Some o -> exists x, nth_error cs k = Some x).
  { intros k o Hk. destruct (nth_error cs k) eqn:Ek; [eauto|]. apply nth_error_None in Ek. rewrite <- H2 in Ek. apply nth_error_None in Ek. congruence. }
  destruct (Hg i oi Hi) as [xi Hxi]. destruct (Hg j oj Hj) as [xj Hxj].
  destruct (H3 i xi oi Hxi Hi) as (I1 & _ & _). destruct (H3 j xj oj Hxj Hj) as (J1 & _ & J3).
  destruct (N.lt_ge_cases (N.of_nat j) lim) as [Hlt|Hge]; [|destruct (J3 Hge) as [Hj3 _]; congruence].
  destruct (I1 ltac:(lia)) as (_ & _ & Ei). destruct (J1 Hlt) as (_ & _ & Ej). lia.
Qed.

End Whole.

(** ** Histories below a limit M *)
Section Prefix.
Variable M : N.
Hypothesis HM : (M <= lim)%N.
Hypothesis Gstep : forall sks prfk rt seed, length sks = n -> length prfk = n -> length rt = n -> length seed = n ->
  forall i ext sm smlen m, G sks seed i ext -> (i + 1 < M)%N -> sig_size r + length m <= length sm ->
  exists ext', G sks seed (i + 1)%N ext' /\
  fsg mt p (sk_layout (toByte i ib) sks prfk rt seed ext) sm smlen m =
  Ok (mkSign 0 (sk_layout (toByte (i + 1) ib) sks prfk rt seed ext')
       (mt_sign P sks prfk rt seed i m ++ m ++ skipn (sig_size r + length m) sm) (sig_size r + length m)).
Lemma fast_sign_then_open rnd pk0 sk0 cs m sm smlen mbuf mlen core : (forall i, (rnd i < 256)%N) ->
  length pk0 = 4 + pk_size r -> length sk0 = 4 + fast_size r -> bytes_ok sk0 -> a_core core ->
  (N.of_nat (length cs) + 1 < M)%N -> Forall (call_ok r) cs ->
  bytes_ok m -> sig_size r + length m <= length sm -> sig_size r + length m <= length mbuf ->
  exists pk sk sk' os o oo,
    keypair mt fast_core pk0 sk0 (r_oid r) rnd = Ok (0%Z, pk, sk) /\
    sign_run mt fast_core sk cs = Ok (sk', os) /\
    sign mt fast_core sk' sm smlen m = Ok o /\ so_rc o = 0%Z /\ so_smlen o = sig_size r + length m /\
    sign_open mt core mbuf mlen (signed_message o) pk = Ok oo /\
    oo_rc oo = 0%Z /\ oo_mlen oo = length m /\ firstn (length m) (oo_m oo) = m.
Proof.
  intros Hb Hpk Hsk Bsk Hc Hi Hok Bm Lsm Lm. assert (Hlim : (N.of_nat (length cs) + 1 < lim)%N) by (clear - Hi HM; lia).
  destruct (fkey_mat pk0 sk0 rnd Hb Hpk Hsk Bsk) as (a & b & c & d & ext & Hf & Hct & Hmat & HG & Hkp).
  pose proof Hf as [[La [Lb [Lc Ld]]] [Ba [Bb [Bc Bd]]]].
  destruct (frun_live mt r Hr a b c d (G a d) M (Gstep a b c d La Lb Lc Ld) cs 0%N ext HG ltac:(lia) Hok) as (os & ext' & HG' & Hrun & _ & _).
  rewrite N.add_0_l in *. set (i := N.of_nat (length cs)) in *.
  destruct (fstep_live mt r Hr a b c d (G a d) M (Gstep a b c d La Lb Lc Ld) i ext' (mkCall m sm smlen) HG' Hi Lsm) as (ext2 & _ & Hs). cbn [c_m c_sm c_smlen] in Hs.
  (* the reference core makes the same signed message *)
  destruct (sign_then_open HE mt r rnd (repeat 0%N (4 + pk_size r)) (repeat 0%N (4 + sk_size r)) cs m sm smlen mbuf mlen core Hr Hb (repeat_length _ _) (repeat_length _ _) Hc Hlim Hok Bm Lsm Lm)
    as (pk & sk & sk' & os' & o & oo & R1 & R2 & R3 & R4 & R5 & R6 & R7 & R8 & R9).
  destruct (keypair_exact HE mt r (repeat 0%N (4 + pk_size r)) (repeat 0%N (4 + sk_size r)) rnd Hr Hb (repeat_length _ _) (repeat_length _ _)) as (a' & b' & c' & d' & _ & _ & Hmat' & Hkp').
  rewrite Hmat in Hmat'. injection Hmat' as <- <- <- <-. rewrite R1 in Hkp'. injection Hkp' as -> ->.
  destruct (run_live HE mt r a b c d Hr Hf cs 0%N ltac:(lia) Hok) as [os2 [Hrun2 _]]. rewrite N.add_0_l in Hrun2. fold i in Hrun2. rewrite R2 in Hrun2. injection Hrun2 as -> ->.
  pose proof (step_live HE mt r Hr i a b c d (mkCall m sm smlen) Hf Hlim Lsm) as Hs2. cbn [c_m c_sm c_smlen] in Hs2. rewrite R3 in Hs2. injection Hs2 as ->.
  eexists _, _, _, os, _, oo. split; [exact Hkp|]. split; [exact Hrun|]. split; [exact Hs|]. cbn [so_rc so_smlen]. split; [reflexivity|]. split; [reflexivity|].
  split; [exact R6|]. auto.
Qed.

(** the key after any number of signatures below the limit: only the index and the traversal data have changed *)
Lemma fast_key_change rnd pk0 sk0 cs pk sk : (forall i, (rnd i < 256)%N) ->
  length pk0 = 4 + pk_size r -> length sk0 = 4 + fast_size r -> bytes_ok sk0 ->
  keypair mt fast_core pk0 sk0 (r_oid r) rnd = Ok (0%Z, pk, sk) -> Forall (call_ok r) cs -> (N.of_nat (length cs) < M)%N ->
  exists sk' os, sign_run mt fast_core sk cs = Ok (sk', os) /\ length sk' = length sk /\ sk_index r sk' = N.of_nat (length cs) /\
    firstn 4 sk' = firstn 4 sk /\ (forall i, i < 4 -> sk_field r i sk' = sk_field r i sk).
Proof.
  intros Hb Hpk Hsk Bsk Hkp Hok Hi.
  destruct (fkey_mat pk0 sk0 rnd Hb Hpk Hsk Bsk) as (a & b & c & d & ext & Hf & Hct & Hmat & HG & Hkp'). assert (Esk : sk = secret_key r 0 a b c d ++ ext) by congruence. subst sk.
  pose proof Hf as [[La [Lb [Lc Ld]]] [Ba [Bb [Bc Bd]]]].
  destruct (frun_live mt r Hr a b c d (G a d) M (Gstep a b c d La Lb Lc Ld) cs 0%N ext HG ltac:(lia) Hok) as (os & ext' & HG' & Hrun & _ & _).
  rewrite N.add_0_l in *. eexists _, os. split; [exact Hrun|].
  pose proof (ser_len ext (Gser a d _ ext La Ld HG)) as L1. pose proof (ser_len ext' (Gser a d _ ext' La Ld HG')) as L2.
  destruct (fsk_parts 0 a b c d ext Hf) as (P1 & P2 & _ & P4 & P5 & P6 & P7).
  destruct (fsk_parts (N.of_nat (length cs)) a b c d ext' Hf) as (Q1 & Q2 & Q3 & Q4 & Q5 & Q6 & Q7). cbv zeta in *.
  split; [rewrite P1, Q1, L1, L2; reflexivity|].
  split; [rewrite Q3; apply N.mod_small; pose proof (pow_h_le mt r Hr); lia|].
  split; [now rewrite P2, Q2|].
  intros [|[|[|[|i]]]] Hi4; try congruence. lia.
Qed.
End Prefix.
End FLife.
