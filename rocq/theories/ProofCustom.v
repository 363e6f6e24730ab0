(** The core functions called directly with caller-chosen parameters. *)
From Verif Require Import Base Lib ModelUtils ModelParams ModelHash ModelWots ModelCommons ModelCore ModelCoreFast SpecRfc SpecParams SpecApi SpecComp SpecFast SpecCustom
  ProofUtils ProofHash ProofWots ProofCommons ProofCore ProofParams ProofComp ProofBds1 ProofBds2 ProofBds3 ProofFast1 ProofFast2 ProofFast3 ProofFast4 ProofFast7 ProofMt1 ProofMt2 ProofMt3 ProofMt4 ProofMt5 ProofMt6 ProofAny ProofApi ProofFast6.

Section Direct.
Context {E : Env}.
Hypothesis HE : env_ok E.
Variable c : custom.
Hypothesis Hc : custom_ok c.
Notation P := (custom_sp c).
Notation n := (cu_n c).
Notation ib := (cu_ib c).
Notation th := (cu_h c / cu_d c).
Notation hf := (hash_of (cu_fn c) (cu_n c)).

Record facts (p : xmss_params) : Prop := {
  fa_ok : params_ok p;
  fa_hash : hash_total p hf;
  fa_sp : sp_of p hf = P;
  fa_n : p_n p = n;
  fa_ib : index_bytes p = ib;
  fa_h : full_height p = cu_h c;
  fa_th : tree_height p = th;
  fa_d : p_d p = cu_d c;
  fa_sig : sig_bytes p = cu_sig c }.

Lemma cp_facts k skb : (N.of_nat (sp_ib P) + 4 * N.of_nat (cu_n c) <= skb)%N -> facts (cp c k skb).
Proof.
  intros Hs. pose proof (cp_ok c Hc k skb Hs) as Hp. pose proof (cp_hash c Hc k skb HE) as HH. pose proof (cp_sp c k skb) as Esp.
  assert (En : p_n (cp c k skb) = n) by apply Nat2N.id. assert (Ed : p_d (cp c k skb) = cu_d c) by apply Nat2N.id.
  assert (Eh : full_height (cp c k skb) = cu_h c) by apply Nat2N.id. assert (Et : tree_height (cp c k skb) = th) by apply Nat2N.id.
  assert (Ei : index_bytes (cp c k skb) = ib) by (rewrite (po_ib _ Hp); unfold cu_ib; rewrite <- Esp; reflexivity).
  constructor; try assumption.
  rewrite (po_sig _ Hp), (po_wsig _ Hp), <- (sp_len_of _ hf Hp), Esp, En, Ed, Ei, Eh. unfold cu_sig.
  destruct Hc as (_ & _ & _ & _ & Eq & _). set (t := th) in *. rewrite Eq. clear. ring.
Qed.

Lemma ref_facts p0 p : inputs c p0 -> xmss_xmssmt_initialize_params ref_core_sk_bytes p0 = Ok (0%Z, p) -> facts p /\ ModelParams.sk_bytes p = ib + 4 * n.
Proof.
  intros Hi Hr. rewrite (init_cp c Hc _ p0 Hi) in Hr. injection Hr as <-. split.
  - apply cp_facts. rewrite (cp_ref_sk c Hc). apply N.le_refl.
  - unfold ModelParams.sk_bytes. cbn [cp f_sk_bytes]. rewrite (cp_ref_sk c Hc). unfold cu_ib, sp_ib. cbn [custom_sp sp_d sp_h]. lia.
Qed.
Lemma fast_facts p0 p : inputs c p0 -> xmss_xmssmt_initialize_params fast_core_sk_bytes p0 = Ok (0%Z, p) -> bds_usable c (bds_k p0) ->
  facts p /\ bds_k p = bds_k p0 /\ ModelParams.sk_bytes p = ib + 4 * n + ser_bytes p /\ ib + 4 * n <= ModelParams.sk_bytes p.
Proof.
  intros Hi Hr (Hk & Hev & Hsz).
  assert (Hfp : fast_params p P (bds_k p0)) by (eapply fast_custom; eassumption).
  destruct (fast_params_facts p P _ Hfp) as (Hp & _ & _ & _ & Ek & _). pose proof (fp_ser_size p P _ Hfp) as Es.
  rewrite (init_cp c Hc _ p0 Hi) in Hr. injection Hr as Hr. 
  assert (HskN : f_sk_bytes p = fast_sk_size P (bds_k p0)).
  { rewrite <- Hr. cbn [cp f_sk_bytes]. unfold bds_k. apply (cp_fast_sk c Hc); [|exact Hsz]. unfold bds_k in Hk. lia. }
  assert (Hfa : facts p).
  { rewrite <- Hr in *. apply cp_facts. cbn [cp f_sk_bytes] in HskN. rewrite HskN. unfold fast_sk_size. change (sp_n P) with n. rewrite <- (N.add_assoc (_ + _)%N). apply N.le_add_r. }
  split; [exact Hfa|]. split; [exact Ek|]. rewrite (fa_ib p Hfa), (fa_n p Hfa) in Es. split; [exact Es|]. rewrite Es. apply Nat.le_add_r.
Qed.

Lemma direct_facts p kp sg lim : direct c p kp sg lim -> facts p.
Proof.
  intros Hd. destruct Hd as [p0 p Hi Hr|p0 p _ Hi Hr|p0 p Hi Hr Hu _|p0 p _ Hi Hr Hu _]; try apply (ref_facts p0 p Hi Hr); apply (fast_facts p0 p Hi Hr Hu).
Qed.

Lemma usable_HU p0 p : bds_usable c (bds_k p0) -> facts p -> bds_k p = bds_k p0 -> bds_k p < tree_height p /\
  Nat.min (thcount p) (tree_height p - 2) <= 2 * ((tree_height p - bds_k p) / 2).
Proof.
  intros (Hk & Hev & _) Hfa Ek. unfold thcount. rewrite Ek, (fa_th p Hfa). set (H := th) in *. set (k := bds_k p0) in *. split; [exact Hk|].
  pose proof (Nat.div_mod (H - k) 2 ltac:(lia)) as Hdm. pose proof (Nat.mod_upper_bound (H - k) 2 ltac:(lia)) as Hmu.
  destruct Hev as [Hl|[x Hx]]; [lia|]. assert (Hm0 : (H - k) mod 2 = 0) by (rewrite Hx, Nat.mul_comm; apply Nat.mod_mul; lia). lia.
Qed.

(** what the theorems need of one core: an invariant on the stored extra part of the key *)
Definition serves (p : xmss_params) (kp : keypair_fn) (sg : sign_fn) (lim : N) (G : bytes -> bytes -> N -> bytes -> Prop) : Prop :=
  (forall pk0 sk0 rnd, length pk0 = 2 * n -> length sk0 = ModelParams.sk_bytes p -> bytes_ok sk0 ->
     let sks := rand_take rnd 0 n in let prfk := rand_take rnd n n in let seed := rand_take rnd (2 * n) n in let rt := mt_root P sks seed in
     exists ext, G sks seed 0%N ext /\ kp pk0 sk0 rnd = Ok (0%Z, rt ++ seed, sk_layout (toByte 0 ib) sks prfk rt seed ext)) /\
  (forall sks prfk rt seed, length sks = n -> length prfk = n -> length rt = n -> length seed = n ->
     forall i ext x, G sks seed i ext -> (i + 1 < lim)%N -> fits c x ->
     exists ext', G sks seed (i + 1)%N ext' /\
     sg (sk_layout (toByte i ib) sks prfk rt seed ext) (c_sm x) (c_smlen x) (c_m x) =
     Ok (mkSign 0 (sk_layout (toByte (i + 1) ib) sks prfk rt seed ext')
          (mt_sign P sks prfk rt seed i (c_m x) ++ c_m x ++ skipn (cu_sig c + length (c_m x)) (c_sm x)) (cu_sig c + length (c_m x)))).

Lemma serves_ref p0 p : inputs c p0 -> xmss_xmssmt_initialize_params ref_core_sk_bytes p0 = Ok (0%Z, p) ->
  serves p (ref_xmssmt_core_keypair p) (ref_xmssmt_core_sign p) (2 ^ N.of_nat (cu_h c)) (fun _ _ _ ext => ext = []).
Proof.
  intros Hi Hr. destruct (ref_facts p0 p Hi Hr) as [Hfa Esk]. split.
  - intros pk0 sk0 rnd Lp Ls _ sks prfk seed rt. exists []. split; [reflexivity|].
    pose proof (keypair_spec p hf (fa_ok p Hfa) (fa_hash p Hfa) pk0 sk0 rnd) as Hkr. rewrite (fa_n p Hfa), (fa_ib p Hfa), (fa_sp p Hfa) in Hkr.
    specialize (Hkr ltac:(lia) ltac:(lia)). cbv zeta in Hkr. fold sks prfk seed in Hkr. fold rt in Hkr.
    rewrite !skipn_all2, !app_nil_r in Hkr by lia. rewrite Hkr. unfold sk_layout. rewrite app_nil_r, (toByte_0 ib). reflexivity.
  - intros sks prfk rt seed L1 L2 L3 L4 i ext x -> Hlt Hx. exists []. split; [reflexivity|].
    pose proof (sign_spec p hf (fa_ok p Hfa) (fa_hash p Hfa) sks prfk rt seed []) as Hs.
    rewrite (fa_n p Hfa), (fa_ib p Hfa), (fa_h p Hfa), (fa_sp p Hfa), (fa_sig p Hfa) in Hs. now apply Hs.
Qed.
Lemma serves_fast_mt p0 p : inputs c p0 -> xmss_xmssmt_initialize_params fast_core_sk_bytes p0 = Ok (0%Z, p) ->
  bds_usable c (bds_k p0) -> 3 <= th -> exists G,
  serves p (fast_xmssmt_core_keypair p) (fast_xmssmt_core_sign p) (2 ^ N.of_nat (th * Nat.min (cu_d c) ((th - bds_k p0) / 2 + 2))) G.
Proof.
  intros Hi Hr Hu H3. destruct (fast_facts p0 p Hi Hr Hu) as (Hfa & Ek & Esk & _). destruct (usable_HU p0 p Hu Hfa Ek) as [HkH HU].
  exists (fun sks seed i ext => exists ss ws, mtinv p hf sks seed i ss ws /\ ext = concat (map (store_state p) ss) ++ ws).
  assert (H3' : 3 <= tree_height p) by (rewrite (fa_th p Hfa); exact H3).
  split.
  - intros pk0 sk0 rnd Lp Ls Bs sks prfk seed rt.
    pose proof (fast_mt_keypair_spec p hf (fa_ok p Hfa) (fa_hash p Hfa) HkH H3' HU pk0 sk0 rnd) as Hkr. rewrite (fa_n p Hfa), (fa_ib p Hfa), (fa_sp p Hfa) in Hkr.
    specialize (Hkr ltac:(lia) Bs ltac:(lia)). cbv zeta in Hkr. fold sks prfk seed in Hkr. fold rt in Hkr. destruct Hkr as (ss & ws & Hs & _ & Heq).
    exists (concat (map (store_state p) ss) ++ ws). split; [exists ss, ws; auto|]. rewrite Heq.
    rewrite !skipn_all2 by (clear - Lp Ls Esk; lia). rewrite !app_nil_r. reflexivity.
  - intros sks prfk rt seed L1 L2 L3 L4 i ext x (ss & ws & Hs & ->) Hlt Hx.
    pose proof (fast_mt_sign_spec p hf (fa_ok p Hfa) (fa_hash p Hfa) HkH H3' HU) as Hf.
    rewrite (fa_n p Hfa), (fa_ib p Hfa), (fa_h p Hfa), (fa_sp p Hfa), (fa_sig p Hfa), (fa_th p Hfa), (fa_d p Hfa), Ek in Hf.
    assert (Hh : (2 ^ N.of_nat (th * Nat.min (cu_d c) ((th - bds_k p0) / 2 + 2)) <= 2 ^ N.of_nat (cu_h c))%N).
    { apply N.pow_le_mono_r; [lia|]. destruct Hc as (_ & _ & _ & _ & Eq & _). pose proof (Nat.le_min_l (cu_d c) ((th - bds_k p0) / 2 + 2)) as X.
      pose proof (Nat.mul_le_mono_l _ _ th X) as Y. clear - Eq Y. lia. }
    assert (Hw : cu_d c <= (th - bds_k p0) / 2 + 2 \/ (i + 1 < 2 ^ N.of_nat (th * ((th - bds_k p0) / 2 + 2)))%N).
    { destruct (Nat.min_spec (cu_d c) ((th - bds_k p0) / 2 + 2)) as [[A B]|[A B]]; rewrite B in Hlt; [left; lia|right; exact Hlt]. }
    destruct (Hf sks seed L1 L4 prfk rt L2 L3 i ss ws (c_sm x) (c_m x) (c_smlen x) [] ltac:(clear - Hlt Hh; lia) Hw Hs Hx) as (ss' & ws' & Hs' & _ & Heq).
    exists (concat (map (store_state p) ss') ++ ws'). split; [exists ss', ws'; auto|]. rewrite !app_nil_r in Heq. exact Heq.
Qed.
Lemma serves_fast p0 p : cu_d c = 1 -> inputs c p0 -> xmss_xmssmt_initialize_params fast_core_sk_bytes p0 = Ok (0%Z, p) ->
  bds_usable c (bds_k p0) -> cu_h c <> 2 -> exists G,
  serves p (fast_xmss_core_keypair p) (fast_xmss_core_sign p) (2 ^ N.of_nat (cu_h c)) G.
Proof.
  intros Hd1 Hi Hr Hu H2. destruct (fast_facts p0 p Hi Hr Hu) as (Hfa & Ek & Esk & _). destruct (usable_HU p0 p Hu Hfa Ek) as [HkH HU].
  assert (Eth : th = cu_h c) by (rewrite Hd1; apply Nat.div_1_r).
  assert (Eib : ib = 4) by (unfold cu_ib, sp_ib; cbn [custom_sp sp_d]; now rewrite Hd1).
  assert (Hd : p_d p = 1) by (rewrite (fa_d p Hfa); exact Hd1).
  assert (Est : ser_bytes p = state_bytes p) by (unfold ser_bytes, nstates; rewrite Hd; cbn [Nat.sub Nat.mul]; lia).
  assert (H2' : tree_height p <> 2) by (rewrite (fa_th p Hfa), Eth; exact H2).
  exists (fun sks seed i ext => exists q s, i = N.of_nat q /\ ready p hf sks seed 0 0 q [] s /\ (st_next_leaf s < 2 ^ 32)%N /\ ext = store_state p s).
  split.
  - intros pk0 sk0 rnd Lp Ls Bs sks prfk seed rt.
    assert (L1 : length sks = n) by apply rand_take_length.
    pose proof (fast_keypair_spec p hf (fa_ok p Hfa) (fa_hash p Hfa) HkH H2' HU Hd sks sks sks sks) as Hkr. rewrite (fa_n p Hfa), (fa_ib p Hfa), (fa_sp p Hfa) in Hkr.
    destruct (Hkr L1 L1 L1 L1 pk0 sk0 rnd ltac:(lia) Bs ltac:(lia)) as (s & Hs & Hn & _ & Heq). cbv zeta in *. fold sks prfk seed in Heq, Hs. fold rt in Heq.
    exists (store_state p s). split; [exists 0, s; rewrite Hn; repeat split; auto; reflexivity|]. rewrite Heq.
    rewrite !skipn_all2 by (clear - Lp Ls Esk Est; lia). rewrite !app_nil_r. reflexivity.
  - intros sks prfk rt seed L1 L2 L3 L4 i ext x (q & s & -> & Hs & Hn & ->) Hlt Hx.
    pose proof (fast_sign_spec p hf (fa_ok p Hfa) (fa_hash p Hfa) HkH H2' HU Hd sks prfk rt seed) as Hf.
    rewrite (fa_n p Hfa), (fa_ib p Hfa), (fa_sp p Hfa), (fa_sig p Hfa), (fa_th p Hfa), Eth in Hf.
    assert (Hq : q + 1 < 2 ^ cu_h c) by (rewrite pow2_of_nat in Hlt; lia).
    destruct (Hf L1 L2 L3 L4 q s (c_sm x) (c_m x) (c_smlen x) [] Hq Hs Hn Hx) as (s' & A & B & C).
    exists (store_state p s'). split; [exists (q + 1), s'; repeat split; auto; lia|]. rewrite !app_nil_r in C. rewrite C.
    replace (N.of_nat q + 1)%N with (N.of_nat (q + 1)) by lia. reflexivity.
Qed.
Lemma direct_serves p kp sg lim : direct c p kp sg lim -> (lim <= 2 ^ N.of_nat (cu_h c))%N /\ exists G, serves p kp sg lim G.
Proof.
  intros Hd. destruct Hd as [p0 p Hi Hr|p0 p _ Hi Hr|p0 p Hi Hr Hu H3|p0 p Hd1 Hi Hr Hu H2].
  - split; [lia|eexists; eapply serves_ref; eassumption].
  - split; [lia|eexists; eapply serves_ref; eassumption].
  - split; [|eapply serves_fast_mt; eassumption]. apply N.pow_le_mono_r; [lia|]. destruct Hc as (_ & _ & _ & _ & Eq & _).
    pose proof (Nat.le_min_l (cu_d c) ((th - bds_k p0) / 2 + 2)) as X. pose proof (Nat.mul_le_mono_l _ _ th X) as Y. clear - Eq Y. lia.
  - split; [lia|eapply serves_fast; eassumption].
Qed.

(** histories *)
Lemma serves_run p kp sg lim G sks prfk rt seed : serves p kp sg lim G -> length sks = n -> length prfk = n -> length rt = n -> length seed = n ->
  forall cs i ext, G sks seed i ext -> (i + N.of_nat (length cs) < lim)%N -> Forall (fits c) cs ->
  exists ext' os, core_run sg (sk_layout (toByte i ib) sks prfk rt seed ext) cs = Ok (sk_layout (toByte (i + N.of_nat (length cs)) ib) sks prfk rt seed ext', os) /\
    length os = length cs /\
    forall j x o, nth_error cs j = Some x -> nth_error os j = Some o ->
      so_rc o = 0%Z /\ so_smlen o = cu_sig c + length (c_m x) /\
      so_sm o = mt_sign P sks prfk rt seed (i + N.of_nat j) (c_m x) ++ c_m x ++ skipn (cu_sig c + length (c_m x)) (c_sm x).
Proof.
  intros HS L1 L2 L3 L4. induction cs as [|x cs IH]; intros i ext HG Hlt Hok.
  - exists ext, []. cbn [core_run length]. rewrite N.add_0_r. split; [reflexivity|]. split; [reflexivity|]. intros j x o Hx. destruct j; discriminate.
  - inversion Hok as [|? ? Hx Hok']; subst. cbn [length] in Hlt.
    destruct (proj2 HS sks prfk rt seed L1 L2 L3 L4 i ext x HG ltac:(lia) Hx) as (e1 & G1 & F1).
    destruct (IH (i + 1)%N e1 G1 ltac:(lia) Hok') as (ext' & os & A & B & D).
    cbn [core_run length]. rewrite F1, bind_ok. cbn [so_sk]. rewrite A, bind_ok.
    replace (i + N.of_nat (S (length cs)))%N with (i + 1 + N.of_nat (length cs))%N by lia.
    eexists ext', _. split; [reflexivity|]. split; [cbn [length]; now rewrite B|].
    intros j y o Hy Ho. destruct j as [|j]; cbn [nth_error] in Hy, Ho.
    + injection Hy as <-. injection Ho as <-. cbn [so_rc so_smlen so_sm]. rewrite N.add_0_r. auto.
    + destruct (D j y o Hy Ho) as (D1 & D2 & D3). replace (i + N.of_nat (S j))%N with (i + 1 + N.of_nat j)%N by lia. auto.
Qed.

(** *** Arbitrary keys *)
Notation top := (2 ^ N.of_nat (cu_h c))%N.
Definition key_len (p : xmss_params) (sk : bytes) : Prop := length sk = ModelParams.sk_bytes p /\ bytes_ok (firstn ib sk).

(** like [stepped], without the index in the signed message *)
Definition moved (p : xmss_params) (i : N) (sk0 sk sm m : bytes) (o : sign_out) : Prop :=
  so_rc o = 0%Z /\ length (so_sk o) = length sk /\ firstn ib (so_sk o) = toByte (i + 1) ib /\
  firstn (4 * n) (skipn ib (so_sk o)) = firstn (4 * n) (skipn ib sk0) /\
  length (so_sm o) = length sm /\ so_smlen o = cu_sig c + length m /\ firstn (length m) (skipn (cu_sig c) (so_sm o)) = m.
Lemma stepped_moved p i sk0 sk sm m o : facts p -> stepped p i sk0 sk sm m o -> moved p i sk0 sk sm m o /\ firstn ib (so_sm o) = toByte i ib.
Proof.
  intros Hfa. unfold stepped, moved. rewrite (fa_ib p Hfa), (fa_n p Hfa), (fa_sig p Hfa). tauto.
Qed.
Lemma ref_any p0 p sk x o : inputs c p0 -> xmss_xmssmt_initialize_params ref_core_sk_bytes p0 = Ok (0%Z, p) -> key_len p sk -> fits c x ->
  ref_xmssmt_core_sign p sk (c_sm x) (c_smlen x) (c_m x) = Ok o -> let i := cu_index c sk in
  (top <= i)%N /\ so_rc o = (-2)%Z /\ length (so_sk o) = length sk /\ firstn ib (so_sk o) = repeat 255%N ib \/
  (i + 1 = top)%N /\ moved p i (zeroed p sk) sk (c_sm x) (c_m x) o \/
  (i + 1 < top)%N /\ moved p i sk sk (c_sm x) (c_m x) o /\ firstn ib (so_sm o) = toByte i ib.
Proof.
  intros Hi Hr [Lk Bk] Hx Ho i. destruct (ref_facts p0 p Hi Hr) as [Hfa Esk]. rewrite Esk in Lk.
  pose proof (fa_ok p Hfa) as Hp. pose proof (fa_hash p Hfa) as HH. pose proof (fa_n p Hfa) as En. pose proof (fa_ib p Hfa) as Ei. pose proof (fa_h p Hfa) as Eh. pose proof (fa_sig p Hfa) as Es.
  destruct (cut sk ib) as (x0 & y0 & Ek & Hx0 & Ex0 & _); [clear - Lk; lia|].
  destruct (cut y0 n) as (x1 & y1 & Ek1 & Hx1 & _); [rewrite Ek, app_length in Lk; clear - Lk Hx0; lia|]. subst y0.
  destruct (cut y1 n) as (x2 & y2 & Ek2 & Hx2 & _); [rewrite Ek, !app_length in Lk; clear - Lk Hx0 Hx1; lia|]. subst y1.
  destruct (cut y2 n) as (x3 & x4 & Ek3 & Hx3 & _); [rewrite Ek, !app_length in Lk; clear - Lk Hx0 Hx1 Hx2; lia|]. subst y2.
  assert (Hx4 : length x4 = n) by (rewrite Ek, !app_length in Lk; clear - Lk Hx0 Hx1 Hx2 Hx3; lia).
  assert (Hidx : i = os2ip x0) by (unfold i, cu_index; now rewrite <- Ex0).
  assert (Ex : x0 = toByte i ib) by (rewrite Hidx, <- Hx0; symmetry; apply toByte_os2ip; now rewrite Ex0).
  assert (Hlt : (i < 256 ^ N.of_nat ib)%N) by (rewrite Hidx, <- Hx0; apply os2ip_lt; now rewrite Ex0).
  assert (Elay : sk = sk_layout (toByte i ib) x1 x2 x3 x4 []) by (unfold sk_layout; rewrite app_nil_r, <- Ex; exact Ek).
  clearbody i. unfold fits in Hx.
  assert (Hml : forall a b rt s j m, length (mt_sign P a b rt s j m) = cu_sig c).
  { intros. rewrite <- (fa_sp p Hfa), <- Es. apply (mt_sign_length p hf Hp HH). }
  destruct (N.lt_ge_cases i top) as [Hlo|Hhi]; [right; destruct (N.eq_dec (i + 1) top) as [Hl|Hl]; [left; split; [exact Hl|]|right; split; [clear - Hlo Hl; lia|]]|left; split; [exact Hhi|]].
  - pose proof (sign_last_spec p hf Hp HH x1 x2 x3 x4 []) as Hs. rewrite En, Ei, Eh, Es, Esk in Hs.
    specialize (Hs Hx1 Hx2 Hx3 Hx4 (c_sm x) (c_m x) (c_smlen x)). cbv zeta in Hs. specialize (Hs ltac:(cbn [length]; clear; lia) Hx).
    assert (Ej : (top - 1)%N = i) by (clear - Hl; lia). rewrite Ej in Hs. rewrite Elay, Hs in Ho. clear Hs.
    set (r0 := PRF (sp_of p hf) (repeat 0%N n) (toByte i 32)) in Ho. 
    set (big := concat _) in Ho.
    assert (Lr : length r0 = n) by (unfold r0; rewrite (PRF_length p hf HH); exact En).
    assert (Lb : ib + n + length big = cu_sig c).
    { pose proof (sig_bytes_eq p Hp) as Q. rewrite Es in Q. unfold big. rewrite (layers_length p hf Hp HH). rewrite Q, Ei, En. clear. lia. }
    apply (f_equal (fun v => match v with Ok a => a | _ => o end)) in Ho. subst o. unfold moved. cbn [so_rc so_sk so_sm so_smlen]. rewrite Elay at 1.
    split; [reflexivity|]. split; [unfold sk_layout; rewrite !app_length, !repeat_length, !toByte_length; cbn [length]; clear - Hx1 Hx2 Hx3 Hx4; lia|].
    split; [unfold sk_layout; rewrite firstn_app_len by (now rewrite toByte_length); now rewrite Hl|].
    split.
    { unfold sk_layout. rewrite skipn_app_len by (now rewrite toByte_length). unfold zeroed. rewrite Ei, skipn_app_len by (now rewrite repeat_length).
      rewrite Esk. replace (ib + 4 * n - ib) with (4 * n) by (clear; lia). cbn [length repeat]. rewrite app_nil_r. rewrite <- !repeat_app. replace (n + (n + (n + n))) with (4 * n) by (clear; lia). reflexivity. }
    split; [rewrite !app_length, skipn_length, repeat_length, Lr; clear - Lb Hx; lia|]. split; [reflexivity|].
    rewrite !app_assoc. rewrite <- (app_assoc _ (c_m x)). rewrite skipn_app_len by (rewrite !app_length, repeat_length, Lr; clear - Lb; lia). apply firstn_app_len. reflexivity.
  - pose proof (sign_spec p hf Hp HH x1 x2 x3 x4 []) as Hs. rewrite En, Ei, Eh, Es, (fa_sp p Hfa) in Hs.
    rewrite Elay, (Hs Hx1 Hx2 Hx3 Hx4 i) in Ho by first [exact Hx | clear - Hlo Hl; lia].
    apply (f_equal (fun v => match v with Ok a => a | _ => o end)) in Ho. subst o. unfold moved. cbn [so_rc so_sk so_sm so_smlen].
    assert (Hixm : firstn ib (mt_sign P x1 x2 x3 x4 i (c_m x) ++ c_m x ++ skipn (cu_sig c + length (c_m x)) (c_sm x)) = toByte i ib).
    { unfold mt_sign. rewrite <- !app_assoc. apply firstn_app_len. now rewrite toByte_length. }
    split; [|exact Hixm]. split; [reflexivity|]. split; [rewrite Elay; unfold sk_layout; rewrite !app_length, !toByte_length; reflexivity|].
    split; [unfold sk_layout; apply firstn_app_len; now rewrite toByte_length|].
    split; [rewrite Elay; unfold sk_layout; now rewrite !skipn_app_len by (now rewrite toByte_length)|].
    split; [rewrite !app_length, skipn_length, Hml; clear - Hx; lia|].
    split; [reflexivity|]. rewrite skipn_app_len by (now rewrite Hml). apply firstn_app_len. reflexivity.
  - pose proof (sign_exhausted_spec p Hp x1 x2 x3 x4 []) as Hs. rewrite En, Ei, Eh, Es, Esk in Hs.
    destruct (Hs Hx1 Hx2 Hx3 Hx4 i (c_sm x) (c_m x) (c_smlen x)) as (sm' & Heq & _); [cbn [length]; clear; lia|clear - Hhi Hlt; lia|exact Hx|].
    rewrite Elay, Heq in Ho. apply (f_equal (fun v => match v with Ok a => a | _ => o end)) in Ho. subst o. cbn [so_rc so_sk].
    split; [reflexivity|]. split; [rewrite Elay; unfold sk_layout; rewrite !app_length, !repeat_length, toByte_length; cbn [length]; clear - Hx1 Hx2 Hx3 Hx4; lia|].
    unfold sk_layout. apply firstn_app_len. now rewrite repeat_length.
Qed.

Lemma direct_any p kp sg lim sk x o : direct c p kp sg lim -> cu_h c <= 60 -> key_len p sk -> fits c x -> sg sk (c_sm x) (c_smlen x) (c_m x) = Ok o -> let i := cu_index c sk in
  (top <= i)%N /\ so_rc o = (-2)%Z /\ length (so_sk o) = length sk /\ firstn ib (so_sk o) = repeat 255%N ib \/
  (i + 1 = top)%N /\ moved p i (zeroed p sk) sk (c_sm x) (c_m x) o \/
  (i + 1 < top)%N /\ moved p i sk sk (c_sm x) (c_m x) o /\ firstn ib (so_sm o) = toByte i ib.
Proof.
  intros Hd Hh [Lk Bk] Hx Ho.
  assert (Hfast : forall mt, facts p -> (mt = false -> p_d p = 1 /\ index_bytes p = 4) ->
    (if mt then fast_xmssmt_core_sign else fast_xmss_core_sign) p sk (c_sm x) (c_smlen x) (c_m x) = Ok o -> let i := cu_index c sk in
  (top <= i)%N /\ so_rc o = (-2)%Z /\ length (so_sk o) = length sk /\ firstn ib (so_sk o) = repeat 255%N ib \/
  (i + 1 = top)%N /\ moved p i (zeroed p sk) sk (c_sm x) (c_m x) o \/
  (i + 1 < top)%N /\ moved p i sk sk (c_sm x) (c_m x) o /\ firstn ib (so_sm o) = toByte i ib).
  { intros mt Hfa Hmt Ho' i. pose proof (core_any p (fa_ok p Hfa) mt sk (c_sm x) (c_smlen x) (c_m x) o Hmt) as HC.
    rewrite (fa_ib p Hfa), (fa_h p Hfa) in HC. specialize (HC Hh Bk Lk Ho'). cbv zeta in HC. fold (cu_index c sk) in HC. fold i in HC.
    destruct HC as [(A & B1 & B2 & B3 & _)|[(A & B)|(A & B)]].
    - left. rewrite (fa_ib p Hfa) in B3. auto.
    - right; left. split; [exact A|]. now apply (stepped_moved p _ _ _ _ _ _ Hfa).
    - right; right. split; [exact A|]. now apply (stepped_moved p _ _ _ _ _ _ Hfa). }
  destruct Hd as [p0 p Hi Hr|p0 p _ Hi Hr|p0 p Hi Hr Hu _|p0 p Hd1 Hi Hr Hu _].
  - exact (ref_any p0 p sk x o Hi Hr (conj Lk Bk) Hx Ho).
  - exact (ref_any p0 p sk x o Hi Hr (conj Lk Bk) Hx Ho).
  - destruct (fast_facts p0 p Hi Hr Hu) as (Hfa & _). apply (Hfast true Hfa); [discriminate|exact Ho].
  - destruct (fast_facts p0 p Hi Hr Hu) as (Hfa & _). apply (Hfast false Hfa); [|exact Ho]. intros _.
    rewrite (fa_d p Hfa), (fa_ib p Hfa). split; [exact Hd1|]. unfold cu_ib, sp_ib. cbn [custom_sp sp_d]. now rewrite Hd1.
Qed.

Lemma direct_size p kp sg lim : direct c p kp sg lim -> ib + 4 * n <= ModelParams.sk_bytes p.
Proof.
  intros Hd. destruct Hd as [p0 p Hi Hr|p0 p _ Hi Hr|p0 p Hi Hr Hu _|p0 p _ Hi Hr Hu _]; try (destruct (ref_facts p0 p Hi Hr) as [_ ->]; apply Nat.le_refl);
  apply (fast_facts p0 p Hi Hr Hu).
Qed.
Lemma top_le_ib : (top <= 256 ^ N.of_nat ib)%N.
Proof.
  rewrite pow256_pow2. apply N.pow_le_mono_r; [discriminate|]. destruct Hc as (_ & _ & _ & D1 & D2 & D3 & D4). unfold cu_ib, sp_ib. cbn [custom_sp sp_d sp_h].
  destruct (Nat.eqb_spec (cu_d c) 1) as [E1|_]; [rewrite E1, Nat.div_1_r in D3; lia|].
  pose proof (Nat.div_mod (cu_h c + 7) 8 ltac:(lia)) as X. pose proof (Nat.mod_upper_bound (cu_h c + 7) 8 ltac:(lia)) as Y. clear - X Y. lia.
Qed.

Lemma direct_any_step p kp sg lim sk x o : direct c p kp sg lim -> cu_h c <= 60 -> key_len p sk -> fits c x -> sg sk (c_sm x) (c_smlen x) (c_m x) = Ok o ->
  let i := cu_index c sk in key_len p (so_sk o) /\
  ((top <= i)%N /\ so_rc o = (-2)%Z /\ cu_index c (so_sk o) = (256 ^ N.of_nat ib - 1)%N \/
   (i < top)%N /\ so_rc o = 0%Z /\ cu_index c (so_sk o) = ((i + 1) mod 256 ^ N.of_nat ib)%N /\
   so_smlen o = cu_sig c + length (c_m x) /\ firstn (length (c_m x)) (skipn (cu_sig c) (so_sm o)) = c_m x /\
   ((i + 1 < top)%N -> cu_index c (so_sm o) = i) /\
   forall j, j < 4 -> cu_field c j (so_sk o) = if (i + 1 =? top)%N then repeat 0%N n else cu_field c j sk).
Proof.
  intros Hd Hh Hk Hx Ho i. pose proof (direct_any p kp sg lim sk x o Hd Hh Hk Hx Ho) as HC. cbv zeta in HC. fold i in HC.
  destruct Hk as [Lk Bk]. pose proof (direct_size p kp sg lim Hd) as Hsz. pose proof (direct_facts p kp sg lim Hd) as Hfa.
  assert (Hlt : (i < 256 ^ N.of_nat ib)%N).
  { unfold i, cu_index. rewrite <- (firstn_length_le sk (n := ib)) at 2 by (clear - Hsz Lk; lia). apply os2ip_lt. exact Bk. }
  assert (Efld : forall j z, j < 4 -> firstn (4 * n) (skipn ib (so_sk o)) = firstn (4 * n) (skipn ib z) -> cu_field c j (so_sk o) = cu_field c j z).
  { intros j z Hj Hz. unfold cu_field. rewrite Nat.add_comm, <- !skipn_skipn.
    apply (f_equal (fun l => firstn n (skipn (j * n) l))) in Hz.
    rewrite !(slice_slice (A := N)) in Hz by (clear - Hj; nia). exact Hz. }
  assert (Hmv : forall sk0, moved p i sk0 sk (c_sm x) (c_m x) o -> key_len p (so_sk o) /\ so_rc o = 0%Z /\ cu_index c (so_sk o) = ((i + 1) mod 256 ^ N.of_nat ib)%N /\
     so_smlen o = cu_sig c + length (c_m x) /\ firstn (length (c_m x)) (skipn (cu_sig c) (so_sm o)) = c_m x /\
     (forall j, j < 4 -> cu_field c j (so_sk o) = cu_field c j sk0)).
  { intros sk0 (M1 & M2 & M3 & M4 & M5 & M6 & M7). split; [split; [congruence|]; rewrite M3; apply toByte_ok|]. split; [exact M1|].
    split; [unfold cu_index; rewrite M3; apply os2ip_toByte|]. split; [exact M6|]. split; [exact M7|]. intros j Hj. now apply Efld. }
  destruct HC as [(A & B1 & B2 & B3)|[(A & B)|(A & B & B')]].
  - split; [split; [congruence|]; rewrite B3; apply Forall_forall; intros q Hq; apply repeat_spec in Hq; subst q; reflexivity|].
    left. split; [exact A|]. split; [exact B1|]. unfold cu_index. rewrite B3, <- top_repeat, os2ip_toByte. apply N.mod_small.
    pose proof (N.pow_nonzero 256 (N.of_nat ib)). lia.
  - destruct (Hmv _ B) as (K & M1 & M2 & M3 & M4 & M5). split; [exact K|]. right. split; [clear - A; lia|]. do 4 (split; [assumption|]).
    split; [intros; clear - A H; lia|]. intros j Hj. rewrite A, N.eqb_refl, (M5 j Hj). unfold cu_field, zeroed. rewrite (fa_ib p Hfa).
    rewrite skipn_app, skipn_all2 by (rewrite repeat_length; clear; lia). rewrite repeat_length. cbn [app]. replace (ib + j * n - ib) with (j * n) by (clear; lia).
    apply zeros_slice. clear - Hsz Hj. nia.
  - destruct (Hmv _ B) as (K & M1 & M2 & M3 & M4 & M5). split; [exact K|]. right. split; [clear - A; lia|]. do 4 (split; [assumption|]).
    split; [intros _; unfold cu_index; rewrite B', os2ip_toByte; apply N.mod_small; exact Hlt|].
    intros j Hj. destruct (N.eqb_spec (i + 1) top) as [Q|_]; [clear - Q A; lia|]. now apply M5.
Qed.
Lemma direct_any_run p kp sg lim : direct c p kp sg lim -> cu_h c <= 60 -> cu_h c < 8 * ib ->
  forall cs sk sk' os, key_len p sk -> Forall (fits c) cs -> core_run sg sk cs = Ok (sk', os) ->
  key_len p sk' /\ length os = length cs /\
  forall k x o, nth_error cs k = Some x -> nth_error os k = Some o -> let i := (cu_index c sk + N.of_nat k)%N in
    ((i < top)%N -> so_rc o = 0%Z /\ cu_index c (so_sk o) = (i + 1)%N /\ so_smlen o = cu_sig c + length (c_m x) /\ firstn (length (c_m x)) (skipn (cu_sig c) (so_sm o)) = c_m x /\
       ((i + 1 < top)%N -> cu_index c (so_sm o) = i)) /\
    ((top <= i)%N -> so_rc o = (-2)%Z /\ (top <= cu_index c (so_sk o))%N).
Proof.
  intros Hd Hh Hib. assert (Ht : (2 * top <= 256 ^ N.of_nat ib)%N).
  { rewrite pow256_pow2, <- N.pow_succ_r'. apply N.pow_le_mono_r; [discriminate|lia]. }
  assert (Ht0 : (0 < top)%N) by (pose proof (N.pow_nonzero 2 (N.of_nat (cu_h c))); lia).
  set (M := (256 ^ N.of_nat ib)%N) in *. set (T := top) in *.
  induction cs as [|x cs IH]; intros sk sk' os Hk Hok H0; cbn [core_run] in H0.
  - injection H0 as <- <-. split; [exact Hk|]. split; [reflexivity|]. intros k q o Hq. destruct k; discriminate.
  - inversion Hok as [|? ? Hx Hok']; subst. apply bind_inv in H0. destruct H0 as (o & H0 & H1). apply bind_inv in H1. destruct H1 as ((sk1 & os1) & H1 & H2). injection H2 as <- <-.
    destruct (direct_any_step p kp sg lim sk x o Hd Hh Hk Hx H0) as (Hk' & HS). destruct (IH (so_sk o) sk1 os1 Hk' Hok' H1) as (I1 & I2 & I3).
    fold M T in HS. clearbody M T. split; [exact I1|]. split; [cbn [length]; now rewrite I2|]. intros k q oo Hq Hoo.
    destruct k as [|k]; cbn [nth_error] in Hq, Hoo.
    + injection Hq as <-. injection Hoo as <-. change (N.of_nat 0) with 0%N. rewrite !N.add_0_r.
      destruct HS as [(A1 & A2 & A3)|(A1 & A2 & A3 & A4 & A5 & A6 & _)]; split; intros HH; try (clear - A1 HH; lia).
      * split; [exact A2|]. rewrite A3. clear - Ht Ht0. lia.
      * split; [exact A2|]. split; [rewrite A3; apply N.mod_small; clear - A1 Ht; lia|]. auto.
    + destruct (I3 k q oo Hq Hoo) as (J1 & J2). rewrite Nat2N.inj_succ.
      destruct HS as [(A1 & A2 & A3)|(A1 & A2 & A3 & _)].
      * split; [intros HH; clear - A1 HH; lia|]. intros _. apply J2. rewrite A3. clear - Ht Ht0. lia.
      * rewrite N.mod_small in A3 by (clear - A1 Ht; lia). rewrite A3 in J1, J2.
        replace (cu_index c sk + N.succ (N.of_nat k))%N with (cu_index c sk + 1 + N.of_nat k)%N by (clear; lia). auto.
Qed.

(** *** Opening *)
Lemma direct_open p kp sg lim buf sm pk : direct c p kp sg lim -> cu_sig c <= length sm -> bytes_ok (firstn ib sm) -> length pk = 2 * n -> length sm <= length buf ->
  let msg := skipn (cu_sig c) sm in
  exists m', xmssmt_core_sign_open p buf sm pk =
    Ok (if mt_verify P (firstn n pk) (skipn n pk) (firstn (cu_sig c) sm) msg then mkOpen 0 (msg ++ skipn (length msg) m') (length msg)
        else mkOpen (-1) (repeat 0%N (length msg) ++ skipn (length msg) m') 0) /\ length m' = length buf.
Proof.
  intros Hd Hl Hb Hpk Hbuf msg. pose proof (direct_facts p kp sg lim Hd) as Hfa.
  pose proof (open_spec p hf (fa_ok p Hfa) (fa_hash p Hfa) buf sm pk msg) as Hs. rewrite (fa_n p Hfa), (fa_ib p Hfa), (fa_sig p Hfa), (fa_sp p Hfa) in Hs.
  destruct Hs as (m' & Heq & Hm & _); [unfold msg; rewrite skipn_length; clear - Hl; lia|reflexivity|exact Hb|clear - Hpk; lia|exact Hbuf|].
  exists m'. split; [|exact Hm]. rewrite Heq. rewrite (firstn_all2 (n := n) (skipn n pk)) by (rewrite skipn_length; clear - Hpk; lia). reflexivity.
Qed.
Lemma direct_honest p kp sg lim sks prfk seed i m buf : direct c p kp sg lim -> length sks = n -> length prfk = n -> length seed = n -> (i < top)%N ->
  let rt := mt_root P sks seed in let sm := mt_sign P sks prfk rt seed i m ++ m in length sm <= length buf ->
  length (mt_sign P sks prfk rt seed i m) = cu_sig c /\
  exists m', xmssmt_core_sign_open p buf sm (rt ++ seed) = Ok (mkOpen 0 m' (length m)) /\ firstn (length m) m' = m /\ length m' = length buf.
Proof.
  intros Hd L1 L2 L4 Hi rt sm Hbuf. pose proof (direct_facts p kp sg lim Hd) as Hfa.
  assert (Lr : length rt = n) by (unfold rt, mt_root; rewrite <- (fa_sp p Hfa); unfold root; rewrite (node_length p hf (fa_ok p Hfa) (fa_hash p Hfa)); apply (fa_n p Hfa)).
  assert (Ls : length (mt_sign P sks prfk rt seed i m) = cu_sig c) by (rewrite <- (fa_sp p Hfa), <- (fa_sig p Hfa); apply (mt_sign_length p hf (fa_ok p Hfa) (fa_hash p Hfa))).
  split; [exact Ls|].
  destruct (direct_open p kp sg lim buf sm (rt ++ seed) Hd) as (m' & Heq & Hm').
  { unfold sm. rewrite app_length. clear - Ls. lia. }
  { unfold sm, mt_sign. rewrite <- !app_assoc. rewrite firstn_app_len by (now rewrite toByte_length). apply toByte_ok. }
  { rewrite app_length. clear - Lr L4. lia. } { exact Hbuf. }
  cbv zeta in Heq. rewrite (firstn_app_len rt), (skipn_app_len rt) in Heq by (now rewrite Lr).
  unfold sm in Heq. rewrite (firstn_app_len (mt_sign _ _ _ _ _ _ _)), !(skipn_app_len (mt_sign _ _ _ _ _ _ _)) in Heq by (now rewrite Ls).
  assert (Hv : mt_verify P rt seed (mt_sign P sks prfk rt seed i m) m = true).
  { unfold rt. rewrite <- (fa_sp p Hfa). apply (mt_sign_verifies p hf (fa_ok p Hfa) (fa_hash p Hfa)); rewrite ?(fa_n p Hfa), ?(fa_h p Hfa); assumption. }
  rewrite Hv in Heq. exists (m ++ skipn (length m) m'). split; [exact Heq|]. split; [apply firstn_app_len; reflexivity|].
  rewrite app_length, skipn_length, Hm'. unfold sm in Hbuf. rewrite app_length in Hbuf. clear - Hbuf. lia.
Qed.

Lemma custom_story p kp sg lim rnd pk0 sk0 cs : direct c p kp sg lim ->
  length pk0 = 2 * n -> length sk0 = ModelParams.sk_bytes p -> bytes_ok sk0 -> (N.of_nat (length cs) < lim)%N -> Forall (fits c) cs ->
  let sks := map rnd (seq 0 n) in let prfk := map rnd (seq n n) in let seed := map rnd (seq (2 * n) n) in let rt := mt_root P sks seed in
  exists sk sk' os, kp pk0 sk0 rnd = Ok (0%Z, rt ++ seed, sk) /\ firstn (ib + 4 * n) sk = toByte 0 ib ++ sks ++ prfk ++ rt ++ seed /\
    core_run sg sk cs = Ok (sk', os) /\ firstn (ib + 4 * n) sk' = toByte (N.of_nat (length cs)) ib ++ sks ++ prfk ++ rt ++ seed /\ length os = length cs /\
    forall j x o, nth_error cs j = Some x -> nth_error os j = Some o ->
      so_rc o = 0%Z /\ so_smlen o = cu_sig c + length (c_m x) /\
      firstn (so_smlen o) (so_sm o) = mt_sign P sks prfk rt seed (N.of_nat j) (c_m x) ++ c_m x /\
      skipn (so_smlen o) (so_sm o) = skipn (so_smlen o) (c_sm x) /\
      forall buf, so_smlen o <= length buf -> exists m', xmssmt_core_sign_open p buf (firstn (so_smlen o) (so_sm o)) (rt ++ seed) = Ok (mkOpen 0 m' (length (c_m x))) /\
        firstn (length (c_m x)) m' = c_m x.
Proof.
  intros Hd Lp Ls Bs Hlim Hok sks prfk seed rt. destruct (direct_serves p kp sg lim Hd) as (Hll & G & HS).
  pose proof (direct_facts p kp sg lim Hd) as Hfa.
  assert (L1 : length sks = n) by (unfold sks; now rewrite map_length, seq_length). assert (L2 : length prfk = n) by (unfold prfk; now rewrite map_length, seq_length).
  assert (L4 : length seed = n) by (unfold seed; now rewrite map_length, seq_length).
  assert (L3 : length rt = n) by (unfold rt, mt_root; rewrite <- (fa_sp p Hfa); unfold root; rewrite (node_length p hf (fa_ok p Hfa) (fa_hash p Hfa)); apply (fa_n p Hfa)).
  destruct (proj1 HS pk0 sk0 rnd Lp Ls Bs) as (ext & HG & Hkp). change (rand_take rnd 0 n) with sks in *. change (rand_take rnd n n) with prfk in *. change (rand_take rnd (2 * n) n) with seed in *. fold rt in Hkp.
  destruct (serves_run p kp sg lim G sks prfk rt seed HS L1 L2 L3 L4 cs 0%N ext HG) as (ext' & os & A & B & D); [now rewrite N.add_0_l|exact Hok|].
  rewrite N.add_0_l in A.
  assert (Lay : forall i e, firstn (ib + 4 * n) (sk_layout (toByte i ib) sks prfk rt seed e) = toByte i ib ++ sks ++ prfk ++ rt ++ seed).
  { intros i e. unfold sk_layout. rewrite !app_assoc. rewrite (firstn_app_len ((((_ ++ _) ++ _) ++ _) ++ _)); [reflexivity|]. rewrite !app_length, toByte_length. clear - L1 L2 L3 L4. lia. }
  eexists _, _, os. split; [exact Hkp|]. split; [apply Lay|]. split; [exact A|]. split; [apply Lay|]. split; [exact B|].
  intros j x o Hx Ho. destruct (D j x o Hx Ho) as (D1 & D2 & D3). rewrite N.add_0_l in D3. split; [exact D1|]. split; [exact D2|].
  assert (Hj : (N.of_nat j < top)%N). { assert (Q : j < length cs) by (apply nth_error_Some; congruence). clear - Q Hlim Hll. lia. }
  destruct (direct_honest p kp sg lim sks prfk seed (N.of_nat j) (c_m x) (mt_sign P sks prfk rt seed (N.of_nat j) (c_m x) ++ c_m x) Hd L1 L2 L4 Hj (Nat.le_refl _)) as (Lsig & _). fold rt in Lsig.
  assert (F1 : firstn (so_smlen o) (so_sm o) = mt_sign P sks prfk rt seed (N.of_nat j) (c_m x) ++ c_m x).
  { rewrite D2, D3, app_assoc. apply firstn_app_len. rewrite app_length, Lsig. reflexivity. }
  split; [exact F1|]. split; [rewrite D2, D3, app_assoc; apply skipn_app_len; rewrite app_length, Lsig; reflexivity|].
  intros buf Hbuf. rewrite F1.
  destruct (direct_honest p kp sg lim sks prfk seed (N.of_nat j) (c_m x) buf Hd L1 L2 L4 Hj) as (_ & m' & M1 & M2 & _).
  { cbv zeta. fold rt. rewrite app_length, Lsig. clear - Hbuf D2. lia. }
  exists m'. split; [exact M1|exact M2].
Qed.
End Direct.
