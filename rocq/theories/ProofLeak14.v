(** The chains of the multi-tree fast core: signing and key generation. *)
From Coq Require Import ZArith.
From Verif Require Import Base Lib SpecRfc ModelUtils ModelParams ModelHash ModelWots ModelCommons ModelCore ModelCoreFast ModelXmss
  ProofUtils ProofHash ProofWots ProofCommons ProofTree ProofCore SpecParams SpecApi SpecFast ModelLeak ModelLeakFast SpecLeak ProofLeak ProofLeak2 ProofLeak3 ProofLeak8 ProofLeak9 ProofLeak11 ProofLeak13
  ProofSched ProofBds1 ProofBds2 ProofBds3 ProofBds4 ProofFast1 ProofFast2 ProofFast5 ProofMt1 ProofMt2 ProofMt3 ProofMt4 ProofMt5 ProofMt6.

Section Mt.
Context {E : Env}.
Variable p : xmss_params.
Variable Hf : bytes -> bytes.
Hypothesis Hp : params_ok p.
Hypothesis HH : hash_total p Hf.
Notation P := (sp_of p Hf).
Notation n := (p_n p).
Notation H := (tree_height p).
Notation k := (bds_k p).
Notation thc := (thcount p).
Notation wsig := (wots_sig_bytes p).
Notation d := (p_d p).
Notation ib := (index_bytes p).
Hypothesis Hk : k < H.
Hypothesis H3 : 3 <= H.
Notation U := ((H - k) / 2).
Hypothesis HU : Nat.min thc (H - 2) <= 2 * U.
Notation dig := (dig H).
Notation hi := (hi H).

Let H30 : H <= 30.
Proof. pose proof (po_th p Hp). lia. Qed.
Let Hh : full_height p = H * d.
Proof. rewrite (po_h p Hp). apply Nat.mul_comm. Qed.

Lemma mt_sign_chains sks prfk rt seed ss ws idx sm m smlen o : length sks = n -> length prfk = n -> length rt = n -> length seed = n ->
  (idx + 1 < 2 ^ N.of_nat (full_height p))%N -> d <= U + 2 \/ (idx + 1 < 2 ^ N.of_nat (H * (U + 2)))%N ->
  mtinv p Hf sks seed idx ss ws ->
  let sk := sk_layout (toByte idx ib) sks prfk rt seed (concat (map (store_state p) ss) ++ ws) in
  outcome (fast_xmssmt_core_sign_l p sk sm smlen m) = Ok o ->
  chains (trace (fast_xmssmt_core_sign_l p sk sm smlen m)) =
  map (chain_trace P) (wots_digits P (H_msg P (PRF P prfk (toByte idx 32)) rt idx m)) ++
  concat (map (fun c => map (chain_trace P) (roll_digits p Hf sks seed idx c)) (seq 0 d)).
Proof.
  intros Hs1 Hs2 Hs3 Hs4 Hi Hwin Hinv sk H0. unfold fast_xmssmt_core_sign_l in *. cbv zeta in *.
  assert (Hd : 1 <= d) by apply (po_d p Hp).
  pose proof (mtinv_ok p Hf Hp HH Hk H3 HU sks seed Hs1 Hs4 idx ss ws Hinv) as Ok1.
  set (ext := concat (map (store_state p) ss) ++ ws) in *. assert (Lx : length (toByte idx ib) = ib) by apply toByte_length.
  assert (Lidx' : (idx < 2 ^ N.of_nat (full_height p))%N) by lia.
  eapply ch_drop; [apply nc_deser|exact H0|clear H0; intros [ss' ws'] Hde H0; cbv beta iota in H0 |- *].
  rewrite lf_deser in Hde.
  assert (Hde' : xmssmt_deserialize_state p sk = Ok (ss, ws)).
  { replace sk with ((toByte idx ib ++ sks ++ prfk ++ rt ++ seed) ++ concat (map (store_state p) ss) ++ ws ++ []) by (unfold sk, sk_layout, ext; rewrite app_nil_r, <- !app_assoc; reflexivity).
    apply (deserialize_spec p Hk H30 Hd); [rewrite !app_length, Lx; lia|exact Ok1|apply Hinv]. }
  rewrite Hde in Hde'. assert (E1 : ss' = ss) by congruence. assert (E2 : ws' = ws) by congruence. subst ss' ws'. clear Hde Hde'.
  eapply ch_drop; [reflexivity|exact H0|clear H0; intros x Hx H0]. apply (rd_is _ _ _ (toByte idx ib)) in Hx; [|apply (rd_at _ [] (toByte idx ib) (sks ++ prfk ++ rt ++ seed ++ ext)); reflexivity || lia]. subst x.
  eapply ch_drop; [reflexivity|exact H0|clear H0; intros x Hx H0]. cbn [silent outcome] in Hx. rewrite ull_field in Hx by (apply (po_ib_le p Hp) || now apply (idx_fits p Hp)). injection Hx as <-.
  eapply ch_drop; [reflexivity|exact H0|clear H0; intros x Hx H0]. cbn [silent outcome] in Hx. unfold shl1_ull in Hx. destruct (Nat.ltb_spec (full_height p) 64) as [_|]; [|discriminate]. injection Hx as <-.
  apply ch_iff. unfold lif in H0 at 1. cbn [outcome] in H0. destruct (N.leb_spec (2 ^ N.of_nat (full_height p) - 1) idx) as [?|_]; [lia|].
  unfold fast_mt_sign_body_l in *. cbv zeta in *.
  eapply ch_drop; [reflexivity|exact H0|clear H0; intros x Hx H0]. apply (rd_is _ _ _ sks) in Hx; [|apply (rd_at _ (toByte idx ib) sks (prfk ++ rt ++ seed ++ ext)); reflexivity || lia]. subst x.
  eapply ch_drop; [reflexivity|exact H0|clear H0; intros x Hx H0]. apply (rd_is _ _ _ prfk) in Hx; [|apply (rd_at _ (toByte idx ib ++ sks) prfk (rt ++ seed ++ ext)); [unfold sk, sk_layout; rewrite <- !app_assoc; reflexivity|rewrite app_length; lia|lia]]. subst x.
  eapply ch_drop; [reflexivity|exact H0|clear H0; intros x Hx H0]. apply (rd_is _ _ _ seed) in Hx; [|apply (rd_at _ (toByte idx ib ++ sks ++ prfk ++ rt) seed ext); [unfold sk, sk_layout; rewrite <- !app_assoc; reflexivity|rewrite !app_length; lia|lia]]. subst x.
  eapply ch_drop; [reflexivity|exact H0|clear H0; intros sk' Hsk H0]. cbn [wr_l outcome] in Hsk. rewrite ull_to_bytes_spec in Hsk.
  unfold sk, sk_layout in Hsk. set (ix' := toByte (u64 (idx + 1)) ib) in *. assert (Lx' : length ix' = ib) by apply toByte_length.
  rewrite (wr_at _ [] (toByte idx ib) (sks ++ prfk ++ rt ++ seed ++ ext)) in Hsk by (reflexivity || lia). injection Hsk as <-. cbn [app] in H0 |- *.
  eapply ch_drop; [apply nc_prf|exact H0|clear H0; intros r Hr H0].
  eapply ch_drop; [reflexivity|exact H0|clear H0; intros sm1 W H0].
  eapply ch_drop; [reflexivity|exact H0|clear H0; intros x Hx H0]. apply (rd_is _ _ _ rt) in Hx; [|apply (rd_at _ (ix' ++ sks ++ prfk) rt (seed ++ ext)); [rewrite <- !app_assoc; reflexivity|rewrite !app_length; lia|lia]]. subst x.
  apply ch_iff. unfold lif in H0 at 1. cbn [outcome] in H0. destruct (Nat.ltb_spec (sig_bytes p) (padding_len p + 3 * n)) as [?|Hsg]; [discriminate|].
  eapply ch_drop; [apply nc_hm; intros; reflexivity|exact H0|clear H0; intros [M sm2] HM H0; cbv beta iota in H0 |- *].
  rewrite <- (digest p Hf Hp HH prfk rt idx sm m sm1 r M sm2 Hs3 Hs2 Hr W Hsg HM).
  assert (HMf : length M = n /\ bytes_ok M).
  { rewrite (digest p Hf Hp HH prfk rt idx sm m sm1 r M sm2 Hs3 Hs2 Hr W Hsg HM). split; [apply (Hf_length p Hf HH)|apply (Hf_bytes p Hf HH)]. }
  destruct HMf as [HMl HMb]. clear HM W Hr.
  eapply ch_drop; [reflexivity|exact H0|clear H0; intros sm3 _ H0].
  eapply ch_drop; [reflexivity|exact H0|clear H0; intros sm4 _ H0].
  eapply ch_drop; [reflexivity|exact H0|clear H0; intros it Hit H0]. cbn [silent outcome] in Hit.
  eapply ch_drop; [reflexivity|exact H0|clear H0; intros th Hth H0]. cbn [silent outcome] in Hth.
  assert (Eit : it = hi idx 1).
  { unfold shr_ull in Hit. destruct (Nat.ltb_spec H 64) as [_|]; [|discriminate]. injection Hit as <-. rewrite N.shiftr_div_pow2. unfold ProofMt1.hi. now rewrite Nat.mul_1_r. }
  assert (Eth : th = (2 ^ N.of_nat H)%N).
  { unfold shl1_int in Hth. destruct (Nat.ltb_spec H 31) as [_|]; [|discriminate]. congruence. }
  subst it th. clear Hit Hth.
  assert (Elf : u32 (N.land idx (2 ^ N.of_nat H - 1)) = N.of_nat (dig idx 0)).
  { replace (2 ^ N.of_nat H - 1)%N with (N.ones (N.of_nat H)) by (rewrite N.ones_equiv, N.sub_1_r; reflexivity). rewrite N.land_ones. rewrite (dig_N H), (hi_0 H). apply N.mod_small.
    eapply N.lt_trans; [apply N.mod_lt; apply N.pow_nonzero; discriminate|]. apply N.pow_lt_mono_r; [reflexivity|]. lia. }
  rewrite Elf in H0 |- *.
  match type of H0 with context [wots_sign_l p M sks seed ?a] => set (oa := a) in * end.
  destruct (wots_sign_spec p Hf Hp HH seed 0 (hi idx 1) (N.of_nat (dig idx 0)) Hs4 sks M oa Hs1 HMb HMl) as (oa' & Hws & Hoa).
  { split; [|reflexivity]. split; [reflexivity|]. split; [apply u32_shiftr_u64|]. split; reflexivity. }
  apply bind_inv in H0. destruct H0 as ([sig a] & H1 & H0). rewrite <- (app_nil_r (concat _)).
  eapply ch_bind; [exact H1| |].
  { eapply (ws_ch p Hf Hp HH); [exact HMl|exact HMb|lia|exact H1]. }
  rewrite lw_wsign, Hws in H1. injection H1 as <- <-. cbv beta iota in H0 |- *.
  eapply ch_drop; [reflexivity|exact H0|clear H0; intros sm5 _ H0].
  eapply ch_drop; [reflexivity|exact H0|clear H0; intros s0 _ H0].
  eapply ch_drop; [reflexivity|exact H0|clear H0; intros au _ H0].
  eapply ch_drop; [reflexivity|exact H0|clear H0; intros sm6 _ H0].
  eapply ch_drop; [ncs|exact H0|clear H0; intros [sm7 o7] _ H0; cbv beta iota in H0 |- *].
  eapply ch_drop; [reflexivity|exact H0|clear H0; intros fl Hfl H0]. cbn [silent outcome] in Hfl.
  assert (Efl : fl = (2 ^ N.of_nat (full_height p))%N) by (unfold shl1_ull in Hfl; destruct (Nat.ltb_spec (full_height p) 64) as [_|]; [congruence|discriminate]). subst fl. clear Hfl.
  destruct (update_chains p Hf Hp HH Hk H3 HU sks seed Hs1 Hs4 idx ss ws oa' (set_tree_addr addr_zero (hi idx 1 + 1))) as (ss2 & U1 & U2).
  { rewrite <- Hh. exact Hi. } { exact Hwin. } { exact Hinv. } { apply Hoa. } { apply sub_tree. reflexivity. }
  eapply ch_drop; [ncs; apply nc_su|exact H0|clear H0; intros ss3 Hs3' H0].
  assert (E3 : ss3 = ss2).
  { cut (Ok ss3 = Ok ss2); [congruence|]. rewrite <- Hs3', <- U1. unfold lif. cbn [outcome]. destruct (_ <? _)%N; [|reflexivity].
    rewrite outcome_bind. cbn [rdc_l outcome]. destruct (rdc ss d) as [nx| |]; cbn [bind]; [|reflexivity|reflexivity].
    rewrite outcome_bind, lf_state_update. reflexivity. }
  subst ss3. clear Hs3'.
  rewrite (fU p) in H0 |- *.
  apply bind_inv in H0. destruct H0 as (v & H1 & H0).
  eapply ch_bind; [exact H1|exact U2|].
  match goal with |- chains (trace ?c) = [] => change (nc c) end. ncs. apply nc_ser.
Qed.

(** key generation: the root of the first tree of each layer but the topmost is signed *)
Section Loop.
Variables (sks seed : bytes).
Hypothesis Hsks : length sks = n.
Hypothesis Hseed : length seed = n.
Notation clean := (clean p).
Notation kinv := (kinv p Hf sks seed).
Lemma kp_chains ss0 ws0 pk0 q : clean ss0 -> length ws0 = (d - 1) * wsig -> length pk0 = n ->
  chains (trace (lforN (d - 1) 0 (fun i '(pk, ss, ws, a) =>
      let! s := rdc_l ss i in
      let! (root, s) := treehash_init_l p H s sks seed a in
      let! pk := wr_l pk 0 root in
      let! ss := wrc_l ss i s in
      let a := set_layer_addr a (N.of_nat (i + 1)) in
      let! (sig, a) := wots_sign_l p root sks seed a in
      let! ws := wr_l ws (i * wots_sig_bytes p) sig in
      Ok (pk, ss, ws, a)) (pk0 ++ q, ss0, ws0, set_layer_addr addr_zero 0))) =
  concat (map (fun i => map (chain_trace P) (wots_digits P (root P sks seed (N.of_nat i) 0))) (seq 0 (d - 1))).
Proof.
  intros Hc Hw Hpk. pose proof (clean_length p ss0 Hc) as Hc0.
  set (slot := ck wsig).
  refine (proj1 (ch_for (fun c '(pk, ss, ws, a) => exists pk1, pk = pk1 ++ q /\ length pk1 = n /\ kinv ss0 c ss ws /\ ots_ctx a (N.of_nat c) 0 0) _ (d - 1) 0 _ _ _ _)).
  - exists pk0. split; [reflexivity|]. split; [exact Hpk|]. split; [|repeat split].
    split; [exact Hc0|]. split; [exact Hw|]. split; [intros i Hi; clear - Hi; lia|]. split; [reflexivity|intros i Hi; clear - Hi; lia].
  - intros c [[[pk ss] ws] a] _ Hcd (pk1 & -> & J0 & (K1 & K2 & K3 & K4 & K5) & Ha). cbn [Nat.add] in Hcd.
    assert (Lc : c < length ss) by (rewrite K1; unfold nstates; clear - Hcd; lia).
    destruct (nth_error ss c) as [s|] eqn:Es; [|apply nth_error_None in Es; clear - Es Lc; lia].
    destruct (clean_at p Hf Hk sks seed Hsks Hseed ss0 c s 0 0 Hc) as (_ & C1 & C2 & C3 & C4); [now rewrite <- K4 by apply Nat.le_refl|].
    destruct (init_layer p Hf Hp HH Hk H3 HU sks seed Hsks Hseed c s a C1 C2 C3 C4) as (s' & T1 & T2). { destruct Ha as [(A0 & A1 & A2 & _) _]. repeat split; assumption. }
    set (rt := root P sks seed (N.of_nat c) 0) in *.
    assert (Lr : length rt = n) by apply (node_length p Hf Hp HH).
    destruct (wots_sign_spec p Hf Hp HH seed (N.of_nat (Datatypes.S c)) 0 0 Hseed sks rt (set_layer_addr a (N.of_nat (c + 1)))) as (a' & W1 & W2).
    { exact Hsks. } { apply (node_bytes p Hf HH). } { exact Lr. }
    { destruct Ha as [(A0 & A1 & A2 & A3) A4]. split; [|exact A4]. split; [cbn; now rewrite Nat.add_1_r|]. split; [exact A1|split; [exact A2|exact A3]]. }
    assert (Eu : concat (wots_sig P seed (N.of_nat (Datatypes.S c)) 0 0 sks rt) = up_sig p Hf sks seed 0 c) by (unfold ProofMt4.up_sig; rewrite !(hi_0i p), (dig_0i p); reflexivity).
    rewrite Eu in W1. assert (Hc1 : c < d - 1) by (clear - Hcd; lia).
    assert (O1 : outcome (rdc_l ss c) = Ok s) by exact (rdc_some _ _ s Es).
    assert (O2 : outcome (treehash_init_l p H s sks seed a) = Ok (rt, s')) by (rewrite lf_init; exact T1).
    assert (O3 : outcome (wr_l (pk1 ++ q) 0 rt) = Ok (rt ++ q)) by (apply (wr_at _ [] pk1 q); reflexivity || (now rewrite Lr, J0)).
    assert (O4 : outcome (wrc_l ss c s') = Ok (upd ss c s')) by (now apply wrc_ok).
    assert (O5 : outcome (wots_sign_l p rt sks seed (set_layer_addr a (N.of_nat (c + 1)))) = Ok (up_sig p Hf sks seed 0 c, a')) by (rewrite lw_wsign; exact W1).
    pose proof (wr_ck wsig ws c (d - 1) (up_sig p Hf sks seed 0 c) K2 Hc1 (up_sig_length p Hf Hp HH sks seed 0 c)) as O6.
    split.
    + apply (ch_skip _ _ _ _ O1 eq_refl). apply (ch_skip _ _ _ _ O2 (nc_init p _ _ _ _ _)). cbv beta iota.
      apply (ch_skip _ _ _ _ O3 eq_refl). apply (ch_skip _ _ _ _ O4 eq_refl). cbv zeta.
      rewrite <- (app_nil_r (map (chain_trace P) _)). apply (ch_bind _ _ _ _ _ O5).
      * eapply (ws_ch p Hf Hp HH); [exact Lr|apply (node_bytes p Hf HH)|lia|exact O5].
      * match goal with |- chains (trace ?c) = [] => change (nc c) end. ncs.
    + rewrite (bind_oc _ _ _ O1), (bind_oc _ _ _ O2). cbv beta iota. rewrite (bind_oc _ _ _ O3), (bind_oc _ _ _ O4). cbv zeta. rewrite (bind_oc _ _ _ O5). cbv beta iota.
      rewrite (bind_oc (wr_l _ _ _) _ _ O6). cbn [silent outcome].
      eexists. split; [reflexivity|]. exists rt. split; [reflexivity|]. split; [exact Lr|]. split; [|exact W2].
      split; [now rewrite upd_length|]. split; [rewrite (setck_length wsig _ _ (d - 1)) by (assumption || apply (up_sig_length p Hf Hp HH)); reflexivity|].
      split; [|split].
      * intros i Hi. destruct (Nat.eq_dec i c) as [->|Hne]; [exists s'; split; [now apply nth_error_upd_same|exact T2]|].
        rewrite nth_error_upd_other by auto. apply K3. clear - Hi Hne; lia.
      * intros j Hj. rewrite nth_error_upd_other by (clear - Hj; lia). apply K4. clear - Hj; lia.
      * intros i Hi HSi. destruct (Nat.eq_dec i c) as [->|Hne]; [apply (ck_setck_same wsig _ _ (d - 1)); assumption || apply (up_sig_length p Hf Hp HH)|].
        rewrite (ck_setck_other wsig _ _ _ (d - 1)); [|exact K2|exact Hc1|clear - HSi; lia|apply (up_sig_length p Hf Hp HH)|auto]. apply K5; [clear - Hi Hne; lia|exact HSi].
Qed.
End Loop.
Section Key.
Lemma mt_kp_chains pk sk r : 2 * n <= length pk -> bytes_ok sk -> ib + 4 * n + ser_bytes p <= length sk ->
  let sks := rand_take r 0 n in let pubs := rand_take r (2 * n) n in
  chains (trace (fast_xmssmt_core_keypair_l p pk sk r)) =
  concat (map (fun i => map (chain_trace P) (wots_digits P (root P sks pubs (N.of_nat i) 0))) (seq 0 (d - 1))).
Proof.
  intros Hpk Hbok Hskl sks0 pubs0. assert (Hd : 1 <= d) by apply (po_d p Hp).
  destruct (fast_mt_keypair_spec p Hf Hp HH Hk H3 HU pk sk r Hpk Hbok Hskl) as (ssf & wsf & _ & _ & H0).
  rewrite <- lf_mt_keypair in H0.
  set (fin := rand_take r 0 n) in H0. clearbody fin.
  match type of H0 with _ = Ok ?o => set (out := o) in H0; clearbody out end. clear ssf wsf fin.
  unfold fast_xmssmt_core_keypair_l in *. cbv zeta in *.
  destruct (cut sk ib) as (x0 & y0 & Ek & Hx0 & _); [clear - Hskl; lia|].
  destruct (cut y0 (2 * n)) as (x1 & y1 & Ek1 & Hx1 & _); [rewrite Ek, app_length in Hskl; clear - Hskl Hx0; lia|]. subst y0.
  destruct (cut y1 n) as (x2 & y2 & Ek2 & Hx2 & _); [rewrite Ek, !app_length in Hskl; clear - Hskl Hx0 Hx1; lia|]. subst y1.
  destruct (cut y2 n) as (x3 & y3 & Ek3 & Hx3 & _); [rewrite Ek, !app_length in Hskl; clear - Hskl Hx0 Hx1 Hx2; lia|]. subst y2.
  destruct (cut y3 (ser_bytes p)) as (x4 & post & Ek4 & Hx4 & _); [rewrite Ek, !app_length in Hskl; clear - Hskl Hx0 Hx1 Hx2 Hx3; lia|]. subst y3.
  assert (Hb4 : bytes_ok x4) by (rewrite Ek in Hbok; rewrite !bytes_ok_app in Hbok; tauto).
  destruct (ser_of_bytes p Hk H30 Hd x4 Hx4 Hb4) as (si & wi & E4 & Hsi & Hwi).
  clear Hbok Hskl. subst sk.
  assert (Edes : xmssmt_deserialize_state p (x0 ++ x1 ++ x2 ++ x3 ++ x4 ++ post) = Ok (si, wi)).
  { replace (x0 ++ x1 ++ x2 ++ x3 ++ x4 ++ post) with ((x0 ++ x1 ++ x2 ++ x3) ++ concat (map (store_state p) si) ++ wi ++ post) by (rewrite E4, <- !app_assoc; reflexivity).
    apply (deserialize_spec p Hk H30 Hd (x0 ++ x1 ++ x2 ++ x3) si wi post); [rewrite !app_length, Hx0, Hx1, Hx2, Hx3; clear; lia|exact Hsi|exact Hwi]. }
  rewrite <- lf_deser in Edes. rewrite (bind_oc _ _ _ Edes) in H0. rewrite (ch_skip _ _ _ _ Edes (nc_deser p _) eq_refl). clear Edes. cbv beta iota in H0 |- *.
  change (map (fun s => set_next_leaf (set_stackoffset s 0) 0%N) si) with (map reset si) in *.
  set (z := repeat 0%N ib) in *. assert (Hz : length z = ib) by apply repeat_length.
  assert (Hrt2 : rand_take r 0 (2 * n) = sks0 ++ rand_take r n n).
  { unfold sks0. replace (2 * n) with (n + n) by (clear; lia). rewrite rand_take_app. reflexivity. }
  set (prfk0 := rand_take r n n) in *.
  assert (Ls : length sks0 = n) by apply rand_take_length. assert (Lp : length prfk0 = n) by apply rand_take_length. assert (Lb : length pubs0 = n) by apply rand_take_length.
  rewrite Hrt2 in H0 |- *. fold pubs0 in H0 |- *.
  eapply ch_drop; [reflexivity|exact H0|clear H0; intros k1 Hs H0]. cbn [wr_l outcome] in Hs.
  rewrite (wr_at _ [] x0 (x1 ++ x2 ++ x3 ++ x4 ++ post)) in Hs by (reflexivity || (now rewrite Hz, Hx0)). injection Hs as <-. cbn [app] in H0 |- *.
  eapply ch_drop; [reflexivity|exact H0|clear H0; intros k1 Hs H0]. cbn [wr_l outcome] in Hs.
  rewrite (wr_at _ z x1 (x2 ++ x3 ++ x4 ++ post)) in Hs by (reflexivity || (rewrite ?app_length; clear - Hz Hx1 Ls Lp; lia)). injection Hs as <-.
  eapply ch_drop; [reflexivity|exact H0|clear H0; intros k1 Hs H0]. cbn [wr_l outcome] in Hs.
  rewrite (wr_at _ (z ++ (sks0 ++ prfk0) ++ x2) x3 (x4 ++ post)) in Hs by ((rewrite <- !app_assoc; reflexivity) || (rewrite ?app_length; clear - Hz Ls Lp Lb Hx2 Hx3; lia)). injection Hs as <-.
  eapply ch_drop; [reflexivity|exact H0|clear H0; intros k1 Hs H0]. apply (rd_is _ _ _ pubs0) in Hs; [|apply (rd_at _ (z ++ (sks0 ++ prfk0) ++ x2) pubs0 (x4 ++ post)); reflexivity || (rewrite ?app_length; clear - Hz Ls Lp Lb Hx2; lia)]. subst k1.
  destruct (cut pk n) as (p0 & q0 & Ep & Hp0 & _); [clear - Hpk; lia|].
  destruct (cut q0 n) as (p1 & q1 & Ep1 & Hp1 & _); [rewrite Ep, app_length in Hpk; clear - Hpk Hp0; lia|]. subst q0. subst pk.
  eapply ch_drop; [reflexivity|exact H0|clear H0; intros k1 Hs H0]. cbn [wr_l outcome] in Hs.
  rewrite (wr_at _ p0 p1 q1) in Hs by (reflexivity || (now rewrite ?Lb)). injection Hs as <-.
  eapply ch_drop; [reflexivity|exact H0|clear H0; intros k1 Hs H0]. apply (rd_is _ _ _ sks0) in Hs; [|apply (rd_at _ z sks0 (prfk0 ++ x2 ++ pubs0 ++ x4 ++ post)); (rewrite <- ?app_assoc; reflexivity) || (clear - Hz Ls; lia)]. subst k1.
  assert (Hcl : clean p (map reset si)) by (exists si; auto).
  apply bind_inv in H0. destruct H0 as (v & H1 & H0).
  rewrite <- (app_nil_r (concat _)).
  eapply ch_bind; [exact H1|apply (kp_chains sks0 pubs0 Ls Lb (map reset si) wi p0 (pubs0 ++ q1) Hcl Hwi Hp0)|].
  destruct v as [[[pk2 ss2] ws2] a2]. match goal with |- chains (trace ?c) = [] => change (nc c) end. ncs; [apply nc_init|apply nc_ser].
Qed.
End Key.
End Mt.
