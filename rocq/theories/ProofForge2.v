(** What either signer gives out, in one statement. *)
From Verif Require Import Base Lib ModelUtils ModelParams ModelHash ModelWots ModelCommons ModelCore ModelCoreFast ModelXmss SpecRfc SpecParams SpecApi SpecComp SpecSec SpecForge SpecFast
  ProofUtils ProofParams ProofApi ProofHistory ProofMain ProofUi2 ProofFast3 ProofFast4 ProofFast6 ProofFast7 ProofMt7 ProofForge PropFast.

Section Both.
Context {E : Env}.
Hypothesis HE : env_ok E.
Variables (mt : bool) (r : row).
Hypothesis Hr : In r (rows mt).
Notation P := (row_sp r).

Lemma single_limit : In r (rows false) -> fast_limit r = (2 ^ N.of_nat (r_h r))%N.
Proof.
  intros Hi. assert (Hd : r_d r = 1).
  { assert (Ha : forallb (fun x => Nat.eqb (r_d x) 1) (rows false) = true) by (vm_compute; reflexivity).
    apply Nat.eqb_eq. exact (proj1 (forallb_forall _ _) Ha r Hi). }
  unfold fast_limit. rewrite Hd. rewrite Nat.div_1_r. rewrite Nat.min_l by lia. now rewrite Nat.mul_1_r.
Qed.

(** the k-th answer *)
Definition good_answer (a b ct d : bytes) (k : nat) (x : call) (o : sign_out) : Prop :=
  so_rc o = 0%Z /\ so_smlen o = sig_size r + length (c_m x) /\
  so_sm o = mt_sign P a b ct d (N.of_nat k) (c_m x) ++ c_m x ++ skipn (sig_size r + length (c_m x)) (c_sm x).

Lemma signer_run core lim size : signer r core lim size -> forall rnd pk0 sk0 cs pk sk, (forall i, (rnd i < 256)%N) ->
  length pk0 = 4 + pk_size r -> length sk0 = 4 + size -> bytes_ok sk0 ->
  keypair mt core pk0 sk0 (r_oid r) rnd = Ok (0%Z, pk, sk) -> (N.of_nat (length cs) < lim)%N -> Forall (call_ok r) cs ->
  exists a b ct d ext ext' os, fields r a b ct d /\ ct = mt_root P a d /\ pk = public_key r ct d /\ sk = secret_key r 0 a b ct d ++ ext /\
    sign_run mt core sk cs = Ok (secret_key r (N.of_nat (length cs)) a b ct d ++ ext', os) /\ length os = length cs /\
    forall k x, nth_error cs k = Some x -> exists o, nth_error os k = Some o /\ good_answer a b ct d k x o.
Proof.
  intros Hs rnd pk0 sk0 cs pk sk Hb Lp Ls Bs Hkp Hn Hok. destruct Hs.
  - destruct (keypair_exact HE mt r pk0 sk0 rnd Hr Hb Lp Ls) as (a & b & ct & d & Hf & Hct & _ & Hkp').
    rewrite Hkp in Hkp'. injection Hkp' as -> ->.
    destruct (run_live HE mt r a b ct d Hr Hf cs 0 ltac:(lia) Hok) as (os & Hrun & Hl & Hnth). rewrite N.add_0_l in Hrun.
    exists a, b, ct, d, [], [], os. rewrite !app_nil_r. do 4 (split; [assumption || reflexivity|]). split; [exact Hrun|]. split; [exact Hl|].
    intros k x Hx. eexists. split; [exact (Hnth k x Hx)|]. rewrite N.add_0_l. split; [reflexivity|]. split; reflexivity.
  - assert (HX : exists G : bytes -> bytes -> N -> bytes -> Prop, (forall sks prfk rt seed : bytes, length sks = r_n r -> length prfk = r_n r -> length rt = r_n r -> length seed = r_n r -> forall (i : N) (ext sm : bytes) (smlen : nat) (m : bytes),
        G sks seed i ext -> (i + 1 < fast_limit r)%N -> sig_size r + length m <= length sm -> exists ext', G sks seed (i + 1)%N ext' /\
        fsg mt (row_params r (sk_fast r)) (ProofCore.sk_layout (toByte i (idx_size r)) sks prfk rt seed ext) sm smlen m =
          Ok (mkSign 0 (ProofCore.sk_layout (toByte (i + 1) (idx_size r)) sks prfk rt seed ext')
                (mt_sign P sks prfk rt seed i m ++ m ++ skipn (sig_size r + length m) sm) (sig_size r + length m))) /\
      exists a b c d ext, fields r a b c d /\ c = mt_root P a d /\ key_material r rnd = (a, b, c, d) /\ G a d 0%N ext /\
        keypair mt fast_core pk0 sk0 (r_oid r) rnd = Ok (0%Z, public_key r c d, secret_key r 0 a b c d ++ ext)).
    { destruct mt.
      - exists (goodm r). split; [exact (mstep HE r Hr)|]. exact (fkey_mat HE true r Hr (goodm r) (mkey HE r Hr) pk0 sk0 rnd Hb Lp Ls Bs).
      - exists (good1 r). split; [rewrite single_limit by exact Hr; exact (xstep HE r Hr)|].
        exact (fkey_mat HE false r Hr (good1 r) (x_Gkey HE r Hr) pk0 sk0 rnd Hb Lp Ls Bs). }
    destruct HX as (G & Gst & a & b & ct & d & ext & Hf & Hct & _ & HG & Hkp'). rewrite Hkp in Hkp'.
    assert (Epk : pk = public_key r ct d) by congruence. assert (Esk : sk = secret_key r 0 a b ct d ++ ext) by congruence. subst pk sk.
    pose proof Hf as [[La [Lb [Lc Ld]]] _].
    destruct (frun_live mt r Hr a b ct d (G a d) (fast_limit r) (Gst a b ct d La Lb Lc Ld) cs 0%N ext HG ltac:(lia) Hok) as (os & ext' & _ & Hrun & Hl & Hnth).
    rewrite N.add_0_l in Hrun. exists a, b, ct, d, ext, ext', os. do 4 (split; [assumption || reflexivity|]). split; [exact Hrun|]. split; [exact Hl|].
    intros k x Hx. destruct (Hnth k x Hx) as [e He]. eexists. split; [exact He|]. rewrite N.add_0_l. split; [reflexivity|]. split; reflexivity.
Qed.

Lemma good_gave a b ct d cs os : length os = length cs ->
  (forall k x, nth_error cs k = Some x -> exists o, nth_error os k = Some o /\ good_answer a b ct d k x o) -> gave r a b ct d cs os.
Proof.
  intros Hl Hn. split; [exact Hl|]. intros j x o Hx Ho. destruct (Hn j x Hx) as (o' & Ho' & _ & Hlen & Hsm). rewrite Ho in Ho'. injection Ho' as <-.
  unfold signed_message. rewrite Hlen, Hsm, app_assoc. apply ProofCore.firstn_app_len. rewrite app_length. rewrite (mt_sign_len HE mt r Hr). reflexivity.
Qed.

Lemma limit_le core lim size : signer r core lim size -> (lim <= 2 ^ N.of_nat (r_h r))%N.
Proof. intros [|]; [lia|]. destruct mt; [exact (mr_lim r Hr)|]. rewrite single_limit by exact Hr. lia. Qed.

Lemma api_no_forgery core lim size : signer r core lim size -> forall rnd pk0 sk0 cs pk sk sk' os c mbuf mlen sm oo, (forall i, (rnd i < 256)%N) ->
  length pk0 = 4 + pk_size r -> length sk0 = 4 + size -> bytes_ok sk0 ->
  keypair mt core pk0 sk0 (r_oid r) rnd = Ok (0%Z, pk, sk) -> (N.of_nat (length cs) < lim)%N -> Forall (call_ok r) cs ->
  sign_run mt core sk cs = Ok (sk', os) ->
  a_core c -> sig_size r <= length sm -> bytes_ok sm -> length sm <= length mbuf ->
  sign_open mt c mbuf mlen sm pk = Ok oo -> oo_rc oo = 0%Z ->
  let seed := sk_field r 3 sk in let rt := sk_field r 2 sk in
  let released := map (fun o => (firstn (sig_size r) (signed_message o), skipn (sig_size r) (signed_message o))) os in
  let k := sm_index r sm in let msg := skipn (sig_size r) sm in
  let forged := verify_queries P seed rt (firstn (sig_size r) sm) msg in
  foreign_root P seed rt forged \/
  (k < 2 ^ N.of_nat (r_h r))%N /\
  forall m', bytes_ok m' -> mt_sign P (sk_field r 0 sk) (sk_field r 1 sk) rt seed k m' ++ m' <> sm -> (forall x, nth_error cs (N.to_nat k) = Some x -> m' = c_m x) ->
    let hsig := mt_sign P (sk_field r 0 sk) (sk_field r 1 sk) rt seed k m' in
    collision P seed (verify_queries P seed rt hsig m') forged \/ inverted P seed rt released hsig m' forged.
Proof.
  intros Hs rnd pk0 sk0 cs pk sk sk' os c mbuf mlen sm oo Hb Lp Ls Bs Hkp Hn Hok Hrun Hc L1 B1 L2 Hop Hrc.
  destruct (signer_run core lim size Hs rnd pk0 sk0 cs pk sk Hb Lp Ls Bs Hkp Hn Hok) as (a & b & ct & d & ext & ext' & os' & Hf & Hct & -> & -> & Hrun' & Hl & Hnth).
  assert (Eos : os' = os) by congruence. subst os'. clear Hrun'.
  destruct (fsk_parts r 0 a b ct d ext Hf) as (_ & _ & _ & Q1 & Q2 & Q3 & Q4). cbv zeta. rewrite Q1, Q2, Q3, Q4.
  pose proof (limit_le core lim size Hs) as Hle.
  exact (no_forgery HE mt r Hr a b ct d Hf Hct cs os c mbuf mlen sm oo ltac:(lia) (good_gave a b ct d cs os Hl Hnth) Hc L1 B1 L2 Hop Hrc).
Qed.

Lemma api_forgery_breaks core lim size : signer r core lim size -> forall rnd pk0 sk0 cs pk sk sk' os c mbuf mlen sm oo, (forall i, (rnd i < 256)%N) ->
  length pk0 = 4 + pk_size r -> length sk0 = 4 + size -> bytes_ok sk0 ->
  keypair mt core pk0 sk0 (r_oid r) rnd = Ok (0%Z, pk, sk) -> (N.of_nat (length cs) < lim)%N -> Forall (call_ok r) cs ->
  sign_run mt core sk cs = Ok (sk', os) ->
  a_core c -> sig_size r <= length sm -> bytes_ok sm -> length sm <= length mbuf ->
  sign_open mt c mbuf mlen sm pk = Ok oo -> oo_rc oo = 0%Z ->
  let seed := sk_field r 3 sk in let rt := sk_field r 2 sk in
  let released := map (fun o => (firstn (sig_size r) (signed_message o), skipn (sig_size r) (signed_message o))) os in
  let k := sm_index r sm in let msg := skipn (sig_size r) sm in
  let forged := verify_queries P seed rt (firstn (sig_size r) sm) msg in
  ((2 ^ N.of_nat (r_h r) <= k)%N -> hash_collision P seed [root_query P seed (sk_field r 0 sk)] forged) /\
  ((k < 2 ^ N.of_nat (r_h r))%N ->
   forall m', bytes_ok m' -> mt_sign P (sk_field r 0 sk) (sk_field r 1 sk) rt seed k m' ++ m' <> sm -> (forall x, nth_error cs (N.to_nat k) = Some x -> m' = c_m x) ->
    let hsig := mt_sign P (sk_field r 0 sk) (sk_field r 1 sk) rt seed k m' in
    hash_collision P seed (verify_queries P seed rt hsig m') forged \/ inverted P seed rt released hsig m' forged).
Proof.
  intros Hs rnd pk0 sk0 cs pk sk sk' os c mbuf mlen sm oo Hb Lp Ls Bs Hkp Hn Hok Hrun Hc L1 B1 L2 Hop Hrc.
  destruct (signer_run core lim size Hs rnd pk0 sk0 cs pk sk Hb Lp Ls Bs Hkp Hn Hok) as (a & b & ct & d & ext & ext' & os' & Hf & Hct & -> & -> & Hrun' & Hl & Hnth).
  assert (Eos : os' = os) by congruence. subst os'. clear Hrun'.
  destruct (fsk_parts r 0 a b ct d ext Hf) as (_ & _ & _ & Q1 & Q2 & Q3 & Q4). cbv zeta. rewrite Q1, Q2, Q3, Q4.
  pose proof (limit_le core lim size Hs) as Hle.
  exact (forgery_breaks HE mt r Hr a b ct d Hf Hct cs os c mbuf mlen sm oo ltac:(lia) (good_gave a b ct d cs os Hl Hnth) Hc L1 B1 L2 Hop Hrc).
Qed.
(** a signed message that was given out, changed anywhere but in its index *)
Lemma api_modified core lim size : signer r core lim size -> forall rnd pk0 sk0 cs pk sk sk' os j x o c mbuf mlen sm oo, (forall i, (rnd i < 256)%N) ->
  length pk0 = 4 + pk_size r -> length sk0 = 4 + size -> bytes_ok sk0 ->
  keypair mt core pk0 sk0 (r_oid r) rnd = Ok (0%Z, pk, sk) -> (N.of_nat (length cs) < lim)%N -> Forall (call_ok r) cs ->
  sign_run mt core sk cs = Ok (sk', os) -> nth_error cs j = Some x -> nth_error os j = Some o -> bytes_ok (c_m x) ->
  a_core c -> sig_size r <= length sm -> bytes_ok sm -> length sm <= length mbuf ->
  firstn (idx_size r) sm = firstn (idx_size r) (signed_message o) -> sm <> signed_message o ->
  sign_open mt c mbuf mlen sm pk = Ok oo -> oo_rc oo = 0%Z ->
  let seed := sk_field r 3 sk in let rt := sk_field r 2 sk in
  let released := map (fun o => (firstn (sig_size r) (signed_message o), skipn (sig_size r) (signed_message o))) os in
  let forged := verify_queries P seed rt (firstn (sig_size r) sm) (skipn (sig_size r) sm) in
  let given := firstn (sig_size r) (signed_message o) in
  hash_collision P seed (verify_queries P seed rt given (c_m x)) forged \/ inverted P seed rt released given (c_m x) forged.
Proof.
  intros Hs rnd pk0 sk0 cs pk sk sk' os j x o c mbuf mlen sm oo Hb Lp Ls Bs Hkp Hn Hok Hrun Hx Ho Bm Hc L1 B1 L2 Hi Hne Hop Hrc.
  destruct (signer_run core lim size Hs rnd pk0 sk0 cs pk sk Hb Lp Ls Bs Hkp Hn Hok) as (a & b & ct & d & ext & ext' & os' & Hf & Hct & Epk & Esk & Hrun' & Hl & Hnth).
  assert (Eos : os' = os) by congruence. subst os'. clear Hrun'.
  pose proof (limit_le core lim size Hs) as Hle.
  pose proof (good_gave a b ct d cs os Hl Hnth) as Hg. pose proof (proj2 Hg j x o Hx Ho) as Esm.
  assert (Hj : j < length cs) by (apply nth_error_Some; congruence).
  assert (Lsg : length (mt_sign P a b ct d (N.of_nat j) (c_m x)) = sig_size r) by (apply (mt_sign_len HE mt r Hr)).
  assert (Hsz : idx_size r <= sig_size r) by (unfold sig_size, sp_sig_bytes, idx_size; lia).
  assert (Hk : sm_index r sm = N.of_nat j).
  { unfold sm_index. rewrite Hi, Esm.
    rewrite firstn_app, (proj2 (Nat.sub_0_le (idx_size r) (length (mt_sign P a b ct d (N.of_nat j) (c_m x))))) by lia. cbn [firstn]. rewrite app_nil_r.
    change (os2ip (firstn (idx_size r) (mt_sign P a b ct d (N.of_nat j) (c_m x)))) with (sig_index P (mt_sign P a b ct d (N.of_nat j) (c_m x))).
    apply (honest_index HE mt r Hr a b ct d). clear - Hj Hn Hle. lia. }
  subst pk sk.
  destruct (fsk_parts r 0 a b ct d ext Hf) as (_ & _ & _ & Q1 & Q2 & Q3 & Q4). cbv zeta. rewrite Q3, Q4.
  assert (Hlo : (N.of_nat (length cs) <= 2 ^ N.of_nat (r_h r))%N) by (clear - Hn Hle; lia).
  destruct (forgery_breaks HE mt r Hr a b ct d Hf Hct cs os c mbuf mlen sm oo Hlo Hg Hc L1 B1 L2 Hop Hrc) as [_ F].
  rewrite Hk in F. rewrite Nat2N.id in F.
  assert (Eg : firstn (sig_size r) (signed_message o) = mt_sign P a b ct d (N.of_nat j) (c_m x)) by (rewrite Esm; now apply ProofCore.firstn_app_len).
  rewrite Eg. apply F; [clear - Hj Hn Hle; lia|exact Bm|rewrite <- Esm; intros EE; exact (Hne (eq_sym EE))|].
  intros y Hy. congruence.
Qed.

Lemma api_out_of_range core lim size : signer r core lim size -> (0 < lim)%N -> forall rnd pk0 sk0 pk sk c mbuf mlen sm oo, (forall i, (rnd i < 256)%N) ->
  length pk0 = 4 + pk_size r -> length sk0 = 4 + size -> bytes_ok sk0 ->
  keypair mt core pk0 sk0 (r_oid r) rnd = Ok (0%Z, pk, sk) ->
  a_core c -> sig_size r <= length sm -> bytes_ok sm -> length sm <= length mbuf ->
  sign_open mt c mbuf mlen sm pk = Ok oo -> oo_rc oo = 0%Z -> (2 ^ N.of_nat (r_h r) <= sm_index r sm)%N ->
  let seed := sk_field r 3 sk in
  hash_collision P seed [root_query P seed (sk_field r 0 sk)] (verify_queries P seed (sk_field r 2 sk) (firstn (sig_size r) sm) (skipn (sig_size r) sm)).
Proof.
  intros Hs Hl rnd pk0 sk0 pk sk c mbuf mlen sm oo Hb Lp Ls Bs Hkp Hc L1 B1 L2 Hop Hrc Hk.
  exact (proj1 (api_forgery_breaks core lim size Hs rnd pk0 sk0 [] pk sk sk [] c mbuf mlen sm oo Hb Lp Ls Bs Hkp Hl (Forall_nil _) eq_refl Hc L1 B1 L2 Hop Hrc) Hk).
Qed.

Lemma api_one_value core lim size : signer r core lim size -> forall rnd pk0 sk0 cs pk sk sk' os i j oi oj l, (forall i, (rnd i < 256)%N) ->
  length pk0 = 4 + pk_size r -> length sk0 = 4 + size -> bytes_ok sk0 ->
  keypair mt core pk0 sk0 (r_oid r) rnd = Ok (0%Z, pk, sk) -> (N.of_nat (length cs) < lim)%N -> Forall (call_ok r) cs ->
  sign_run mt core sk cs = Ok (sk', os) -> nth_error os i = Some oi -> nth_error os j = Some oj -> l < r_d r ->
  tree_of P (sm_index r (so_sm oi)) l = tree_of P (sm_index r (so_sm oj)) l -> leaf_of P (sm_index r (so_sm oi)) l = leaf_of P (sm_index r (so_sm oj)) l ->
  so_rc oi = 0%Z /\ so_rc oj = 0%Z /\
  firstn ((sp_len P + sp_th P) * r_n r) (skipn (idx_size r + r_n r + l * ((sp_len P + sp_th P) * r_n r)) (signed_message oi)) =
  firstn ((sp_len P + sp_th P) * r_n r) (skipn (idx_size r + r_n r + l * ((sp_len P + sp_th P) * r_n r)) (signed_message oj)).
Proof.
  intros Hs rnd pk0 sk0 cs pk sk sk' os i j oi oj l Hb Lp Ls Bs Hkp Hn Hok Hrun Hi Hj Hl Ht Hlf.
  destruct (signer_run core lim size Hs rnd pk0 sk0 cs pk sk Hb Lp Ls Bs Hkp Hn Hok) as (a & b & ct & d & ext & ext' & os' & Hf & Hct & _ & _ & Hrun' & Hlen & Hnth).
  assert (Eos : os' = os) by congruence. subst os'. clear Hrun'. pose proof (limit_le core lim size Hs) as Hle.
  assert (HI : forall k o, nth_error os k = Some o -> so_rc o = 0%Z /\ sm_index r (so_sm o) = N.of_nat k).
  { intros k o Ho. assert (Hk : k < length cs) by (rewrite <- Hlen; apply nth_error_Some; congruence).
    destruct (nth_error cs k) as [x|] eqn:Ex; [|apply nth_error_None in Ex; lia]. destruct (Hnth k x Ex) as (o' & Ho' & R1 & _ & R3).
    rewrite Ho in Ho'. injection Ho' as <-. split; [exact R1|]. rewrite R3. unfold sm_index.
    assert (Hsz : idx_size r <= sig_size r) by (unfold sig_size, sp_sig_bytes, idx_size; lia).
    pose proof (mt_sign_len HE mt r Hr a b ct d (N.of_nat k) (c_m x)) as Lsg.
    rewrite firstn_app, (proj2 (Nat.sub_0_le (idx_size r) (length (mt_sign P a b ct d (N.of_nat k) (c_m x))))) by lia. cbn [firstn]. rewrite app_nil_r.
    change (os2ip (firstn (idx_size r) (mt_sign P a b ct d (N.of_nat k) (c_m x)))) with (sig_index P (mt_sign P a b ct d (N.of_nat k) (c_m x))).
    apply (honest_index HE mt r Hr a b ct d). lia. }
  destruct (HI i oi Hi) as [Ri Ii]. destruct (HI j oj Hj) as [Rj Ij]. rewrite Ii, Ij in Ht, Hlf.
  split; [exact Ri|]. split; [exact Rj|].
  exact (one_value HE mt r Hr a b ct d cs os i j oi oj l (good_gave a b ct d cs os Hlen Hnth) Hi Hj Hl Ht Hlf).
Qed.

(** the premises can be met: whoever has the secret key can open another message *)
Lemma forge_met core lim size : signer r core lim size -> (forall rnd pk0 sk0, (forall i, (rnd i < 256)%N) ->
    length pk0 = 4 + pk_size r -> length sk0 = 4 + size -> bytes_ok sk0 -> exists pk sk, keypair mt core pk0 sk0 (r_oid r) rnd = Ok (0%Z, pk, sk)) ->
  forall rnd pk0 sk0 cs k m c, (forall i, (rnd i < 256)%N) ->
  length pk0 = 4 + pk_size r -> length sk0 = 4 + size -> bytes_ok sk0 -> (N.of_nat (length cs) < lim)%N -> Forall (call_ok r) cs -> bytes_ok m -> a_core c ->
  (k < 2 ^ N.of_nat (r_h r))%N ->
  exists pk sk sk' os sm mbuf oo, keypair mt core pk0 sk0 (r_oid r) rnd = Ok (0%Z, pk, sk) /\ sign_run mt core sk cs = Ok (sk', os) /\
    sig_size r <= length sm /\ bytes_ok sm /\ length sm <= length mbuf /\
    sign_open mt c mbuf 0 sm pk = Ok oo /\ oo_rc oo = 0%Z /\ sm_index r sm = k /\ skipn (sig_size r) sm = m.
Proof.
  intros Hs Hex rnd pk0 sk0 cs k m c Hb Lp Ls Bs Hn Hok Bm Hc Hk. destruct (Hex rnd pk0 sk0 Hb Lp Ls Bs) as (pk & sk & Hkp).
  destruct (signer_run core lim size Hs rnd pk0 sk0 cs pk sk Hb Lp Ls Bs Hkp Hn Hok) as (a & b & ct & d & ext & ext' & os & Hf & Hct & Epk & _ & Hrun & _ & _).
  destruct (honest_opens HE mt r Hr a b ct d Hf Hct c k m (repeat 0%N (sig_size r + length m)) 0) as [oo [Hoo [Hoc _]]]; [exact Hc|exact Hk|exact Bm|rewrite repeat_length; lia|].
  pose proof (honest_index HE mt r Hr a b ct d k m Hk) as Hi.
  set (sg := mt_sign P a b ct d k m) in *.
  assert (Lsg : length sg = sig_size r) by (apply (mt_sign_len HE mt r Hr)).
  eexists pk, sk, _, os, (sg ++ m), (repeat 0%N (sig_size r + length m)), oo.
  split; [exact Hkp|]. split; [exact Hrun|]. split; [rewrite app_length; lia|].
  split; [apply Forall_app; split; [apply (mt_sign_bytes HE mt r Hr)|exact Bm]|]. split; [rewrite repeat_length, app_length; lia|].
  split; [rewrite Epk; exact Hoo|]. split; [exact Hoc|]. split.
  - rewrite <- Hi. unfold sm_index, sig_index. assert (Hs' : idx_size r <= sig_size r) by (unfold sig_size, sp_sig_bytes, idx_size; lia).
    rewrite firstn_app, (proj2 (Nat.sub_0_le (idx_size r) (length sg))) by lia. cbn [firstn]. rewrite app_nil_r. reflexivity.
  - rewrite skipn_app, skipn_all2, Lsg, Nat.sub_diag by lia. reflexivity.
Qed.

(** and the premises of [api_modified] too *)
Lemma modified_met core lim size : signer r core lim size -> (forall rnd pk0 sk0, (forall i, (rnd i < 256)%N) ->
    length pk0 = 4 + pk_size r -> length sk0 = 4 + size -> bytes_ok sk0 -> exists pk sk, keypair mt core pk0 sk0 (r_oid r) rnd = Ok (0%Z, pk, sk)) ->
  forall rnd pk0 sk0 cs j x m c, (forall i, (rnd i < 256)%N) ->
  length pk0 = 4 + pk_size r -> length sk0 = 4 + size -> bytes_ok sk0 -> (N.of_nat (length cs) < lim)%N -> Forall (call_ok r) cs -> bytes_ok m -> a_core c ->
  nth_error cs j = Some x -> c_m x <> m ->
  exists pk sk sk' os o sm mbuf oo, keypair mt core pk0 sk0 (r_oid r) rnd = Ok (0%Z, pk, sk) /\ sign_run mt core sk cs = Ok (sk', os) /\ nth_error os j = Some o /\
    sig_size r <= length sm /\ bytes_ok sm /\ length sm <= length mbuf /\
    firstn (idx_size r) sm = firstn (idx_size r) (signed_message o) /\ sm <> signed_message o /\
    sign_open mt c mbuf 0 sm pk = Ok oo /\ oo_rc oo = 0%Z.
Proof.
  intros Hs Hex rnd pk0 sk0 cs j x m c Hb Lp Ls Bs Hn Hok Bm Hc Hx Hne. destruct (Hex rnd pk0 sk0 Hb Lp Ls Bs) as (pk & sk & Hkp).
  destruct (signer_run core lim size Hs rnd pk0 sk0 cs pk sk Hb Lp Ls Bs Hkp Hn Hok) as (a & b & ct & d & ext & ext' & os & Hf & Hct & Epk & _ & Hrun & Hl & Hnth).
  pose proof (limit_le core lim size Hs) as Hle. assert (Hj : j < length cs) by (apply nth_error_Some; congruence).
  destruct (honest_opens HE mt r Hr a b ct d Hf Hct c (N.of_nat j) m (repeat 0%N (sig_size r + length m)) 0) as [oo [Hoo [Hoc _]]]; [exact Hc|clear - Hj Hn Hle; lia|exact Bm|rewrite repeat_length; lia|].
  destruct (Hnth j x Hx) as (o & Ho & _). pose proof (proj2 (good_gave a b ct d cs os Hl Hnth) j x o Hx Ho) as Esm.
  assert (L1 : forall y, length (mt_sign P a b ct d (N.of_nat j) y) = sig_size r) by (intros y; apply (mt_sign_len HE mt r Hr)).
  eexists pk, sk, _, os, o, (mt_sign P a b ct d (N.of_nat j) m ++ m), (repeat 0%N (sig_size r + length m)), oo.
  split; [exact Hkp|]. split; [exact Hrun|]. split; [exact Ho|]. split; [rewrite app_length, L1; lia|].
  split; [apply Forall_app; split; [apply (mt_sign_bytes HE mt r Hr)|exact Bm]|]. split; [rewrite repeat_length, app_length, L1; lia|].
  split. { rewrite Esm, !(mt_sign_index r). reflexivity. }
  split. { rewrite Esm. intros EE. apply (f_equal (skipn (sig_size r))) in EE. rewrite !ProofCore.skipn_app_len in EE by (symmetry; apply L1). exact (Hne (eq_sym EE)). }
  split; [rewrite Epk; exact Hoo|exact Hoc].
Qed.
End Both.
