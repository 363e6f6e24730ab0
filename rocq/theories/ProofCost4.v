(** What signing costs when more trees end at once than there are updates: the update counter wraps. *)
From Coq Require Import ZArith.
From Verif Require Import Base ModelUtils ModelParams ModelHash ModelWots ModelCommons ModelCore ModelCoreFast SpecRfc Lib ProofUtils ProofHash ProofWots ProofCommons ProofTree ProofCore ProofSched ProofBds1 ProofBds2 ProofBds3 ProofBds4 ProofFast1 ProofFast2 ProofFast5 ProofApi ProofMt1 ProofMt2 ProofMt3 ProofMt4 ProofMt5 ProofMt6 ModelXmss ModelCost ProofCost ProofCost2 ProofCost3.

Lemma cbind_ok {A B} (x : A) (f : A -> cost B) : cbind (free (Ok x)) f = f x.
Proof. unfold cbind, free. cbn [out leaves]. now destruct (f x). Qed.
Lemma lv_bind {A B} (c : cost A) (f : A -> cost B) x : out c = Ok x -> leaves (cbind c f) = (leaves c + leaves (f x))%N.
Proof. intros Hx. unfold cbind. now rewrite Hx. Qed.
Lemma lv_between {A B} (c : cost A) (f : A -> cost B) K : (forall x, (leaves (f x) <= K)%N) -> (leaves c <= leaves (cbind c f) <= leaves c + K)%N.
Proof. intros Hf. unfold cbind. destruct (out c) as [x| |]; cbn [leaves]; [specialize (Hf x)|..]; lia. Qed.
Lemma lv_le {A} (c : cost A) K Q : runs c K Q -> (leaves c <= K)%N.
Proof. now intros [H _]. Qed.

Section Mt.
Context {E : Env}.
Variable p : xmss_params.
Variable Hf : bytes -> bytes.
Hypothesis Hp : params_ok p.
Hypothesis HH : hash_total p Hf.
Notation P := (sp_of p Hf).
Notation n := (p_n p).
Notation H := (tree_height p).
Notation k := (bds_k p).
Notation thc := (thcount p).
Notation wsig := (wots_sig_bytes p).
Notation d := (p_d p).
Hypothesis Hk : k < H.
Hypothesis H3 : 3 <= H.
Notation U := ((H - k) / 2).
Hypothesis HU : Nat.min thc (H - 2) <= 2 * U.
Variables (sks seed : bytes).
Hypothesis Hsks : length sks = n.
Hypothesis Hseed : length seed = n.
Notation dig := (dig H).
Notation hi := (hi H).
Notation full := (full H).
Notation cnt := (cnt H).
Notation A := (A p).
Notation layer := (layer p Hf sks seed).
Notation ex_next := (ex_next p).
Notation allgood := (allgood H).

Let H2 : H <> 2.
Proof. clear - H3; lia. Qed.
Let H30 : H <= 30.
Proof. pose proof (po_th p Hp). lia. Qed.
Let Hh : full_height p = H * d.
Proof. rewrite (po_h p Hp). apply Nat.mul_comm. Qed.
Let U128 : U < 128.
Proof. pose proof (po_th p Hp) as X. apply Nat.div_lt_upper_bound; clear - X; lia. Qed.



Notation slot := (ck wsig).
Notation up_sig := (up_sig p Hf sks seed).


Notation mtinv := (mtinv p Hf sks seed).
Notation ib := (index_bytes p).

(** ** The updates of one tree *)
Lemma updates_cost L T q u f base s m sub : sinv H thc U q u f -> base_ok p base -> trav p Hf sks seed L T q f base s -> sub_ctx L T sub ->
  (leaves (bds_treehash_update_c p s m sks seed sub) <= N.of_nat (tw thc f))%N /\
  (tw thc f < N.to_nat m -> leaves (bds_treehash_update_c p s m sks seed sub) = N.of_nat (tw thc f)).
Proof.
  intros Hi Hb Ht Hsub.
  destruct (btu_loop p Hf Hp HH Hk U HU sks seed L T Hsks Hseed q base sub Hb Hsub (N.to_nat m) 0 s u f Hi (tr_run _ _ _ _ _ _ _ _ _ _ Ht))
    as (s' & f' & r & b & Heq & Hrk & Hi' & _ & _ & Hz & Hw).
  rewrite <- loopN_nat in Heq.
  match type of Heq with loopN _ ?bd _ = _ => set (body := bd) in * end.
  assert (El : leaves (bds_treehash_update_c p s m sks seed sub) = N.of_nat (N.to_nat m - r)).
  { unfold bds_treehash_update_c.
    match goal with |- leaves (cbind (cloopN m ?bd _) _) = _ => set (cbody := bd) end.
    assert (Eo : out (cloopN m cbody (s, 0%N)) = Ok (s', N.of_nat (0 + (N.to_nat m - r)), b)).
    { rewrite (out_loopN m cbody body (s, 0%N)); [exact Heq|]. intros [s0 u0]. unfold cbody, body. er. apply er_update. }
    rewrite (lv_bind _ _ _ Eo). cbn [leaves free]. rewrite N.add_0_r.
    assert (Hr : runs (cloopN m cbody (s, 0%N)) m (fun '(_, u', _) l => (u' = 0 + l)%N)).
    { destruct m as [|x]; [apply runs_ok; reflexivity|]. apply n_loop. intros s1 u1. unfold cbody. rstep. rstep; [|apply runs_ok; clear; lia].
      apply (runs_bind _ _ 1%N (fun _ => 0%N) _ (fun _ l => (l = 1)%N)); [apply n_update|clear; lia|].
      intros s2 l2 _ _ ->. split; [|clear; lia]. apply runs_ok. clear; lia. }
    destruct Hr as [_ Hr]. specialize (Hr _ Eo). cbn in Hr. clear - Hr. lia. }
  rewrite El. split; [clear - Hw; lia|]. intros Hlt.
  assert (Hn : forall i, f' i = None) by (apply Hz; clear - Hw Hlt; lia).
  rewrite (tw_none thc f' Hn) in Hw. clear - Hw. lia.
Qed.

(** ** One layer *)
Definition tail_c (idx : N) (i : nat) (s : bds_state) (updates : N) (ss : list bds_state) (a : addr) (ws : bytes) (ots : addr) (swap : Z) : cost mt_vars :=
    let+ (s, updates) := bds_treehash_update_c p s updates sks seed a in
    let+ ss := wrc ss i s in
    let a := set_tree_addr a (hi idx (S i) + 1) in
    let+ lim := shl1_ull (full_height p - H * i) in
    if (u64 ((1 + hi idx (S i)) * 2 ^ N.of_nat H + N.of_nat (dig idx i)) <? lim)%N then
      if (0 <? i) && (0 <? updates)%N then
        let+ nx := rdc ss (d + i) in
        if (st_next_leaf nx <? 2 ^ N.of_nat (full_height p))%N then
          let+ nx := bds_state_update_c p nx sks seed a in
          let+ ss := wrc ss (d + i) nx in
          Ok (mkMt ss ws a ots (u32 (updates + (2 ^ 32 - 1))) swap)
        else Ok (mkMt ss ws a ots updates swap)
      else Ok (mkMt ss ws a ots updates swap)
    else Ok (mkMt ss ws a ots updates swap).
Lemma tail_cost idx i s x ss a ws ots swap :
  (leaves (bds_treehash_update_c p s x sks seed a) <= leaves (tail_c idx i s x ss a ws ots swap) <= leaves (bds_treehash_update_c p s x sks seed a) + 1)%N.
Proof.
  unfold tail_c. apply lv_between. intros [s' r].
  match goal with |- (leaves ?c <= _)%N => assert (Hc : runs c 1 (fun _ _ => True)) end.
  { rstep. cbv zeta. rstep. rstep; [rstep|]; try (rstep; exact I). rstep. rstep; [|rstep; exact I].
    apply (runs_bind _ _ 1%N (fun _ => 0%N) _ (fun _ l => (l <= 1)%N)); [apply n_state|clear; lia|].
    intros zs3 zl3 _ Hl3 _. split; [|clear - Hl3; lia]. repeat rstep; exact I. }
  exact (lv_le _ _ _ Hc).
Qed.
Lemma step_nofull_c idx i v : i < d -> ~ full idx (S i) ->
  mt_layer_step_c p idx sks seed i v =
  (let a := set_tree_addr (set_layer_addr (mv_addr v) (N.of_nat i)) (hi idx (S i)) in
   let+ s := rdc (mv_ss v) i in
   let+ s := (if (Z.of_nat i =? mv_swap v + 1)%Z then bds_round_c p s (N.of_nat (dig idx i)) sks seed a else Ok s) in
   tail_c idx i s (mv_updates v) (mv_ss v) a (mv_ws v) (mv_ots v) (mv_swap v)).
Proof.
  pose proof (po_h64 p Hp) as P64. rewrite Hh in P64.
  intros Hi NF. unfold mt_layer_step_c. pose proof (mul_le_d p (S i) Hi) as M1. pose proof (mul_le_d p i ltac:(lia)) as M2.
  rewrite (shl_ull ((i + 1) * H)) by (clear - M1 P64; lia). rewrite (shl_ull (full_height p)) by (rewrite Hh; clear - P64; lia). rewrite (two_h p Hp Hk H3 HU sks seed Hsks Hseed), !cbind_ok.
  destruct (N.land (idx + 1) (2 ^ N.of_nat ((i + 1) * H) - 1) =? 0)%N eqn:EL; [exfalso; apply NF; now apply (land_full p Hp Hk H3 HU sks seed Hsks Hseed idx i Hi)|].
  cbn [negb]. rewrite (shr_hi p idx i) by (clear - M2 P64; lia). rewrite cbind_ok. cbv zeta. rewrite (leaf_dig p Hp Hk H3 HU sks seed Hsks Hseed).
  replace (H * (i + 1)) with (H * S i) by (clear; lia). rewrite (shr_hi p idx (S i)) by (clear - M1 P64; lia). rewrite cbind_ok. reflexivity.
Qed.

(** the layer where the carry stops, when the update counter has wrapped *)
Lemma huge_cost idx i v : i < d -> U < i -> full idx i -> ~ full idx (S i) -> layer 0 idx i (mv_ss v) ->
  (2 ^ 31 <= mv_updates v)%N -> (Z.of_nat i = mv_swap v + 1)%Z ->
  (N.of_nat (tw thc (reinit H thc (dig idx i + 1) (fun _ => None))) <= leaves (mt_layer_step_c p idx sks seed i v))%N.
Proof.
  intros Hi HiU F NF' (s & f & u & base & L1 & (C1 & C2 & C3 & C4 & C5 & C6) & L3) Ew Hsw.
  rewrite (step_nofull_c idx i v Hi NF'). cbv zeta.
  rewrite (rdc_some _ _ s L1), cbind_ok. destruct (Z.eqb_spec (Z.of_nat i) (mv_swap v + 1)) as [_|?]; [|contradiction].
  destruct (dig_next H idx i F NF') as [Dn Dl]. set (q := dig idx i) in *.
  assert (Fn : forall j, f j = None) by (destruct C6 as [C6|[C6 _]]; [exact C6|clear - C6 HiU; lia]).
  set (a := set_tree_addr (set_layer_addr (mv_addr v) (N.of_nat i)) (hi idx (S i))).
  assert (Hsub : sub_ctx (N.of_nat i) (hi idx (S i)) a) by (apply sub_tree; reflexivity).
  destruct (bds_round_spec p Hf Hp HH Hk U HU sks seed (N.of_nat i) (hi idx (S i)) Hsks Hseed q u f base s a ltac:(clear - H3; lia) C1 (or_intror Fn) Dl C3 Hsub) as (s1 & R1 & R2 & R3).
  pose proof (reinit_sinv H thc U HU q u f C1 (or_intror Fn)) as R4.
  assert (Ro : out (bds_round_c p s (N.of_nat q) sks seed a) = Ok s1) by (rewrite er_round; exact R1).
  rewrite (lv_bind _ _ _ Ro).
  assert (Etw : tw thc (reinit H thc (q + 1) (fun _ => None)) = tw thc (reinit H thc (q + 1) f)).
  { unfold tw. apply sum_ext. intros j _. unfold rem, reinit. rewrite Fn. reflexivity. }
  rewrite Etw. set (f1 := reinit H thc (q + 1) f) in *.
  pose proof (tw_small p HU f1) as G1.
  assert (G2 : (2 ^ N.of_nat H <= 2 ^ 30)%N) by (apply N.pow_le_mono_r; [discriminate|clear - H30; lia]).
  destruct (tail_cost idx i s1 (mv_updates v) (mv_ss v) a (mv_ws v) (mv_ots v) (mv_swap v)) as [T1 _].
  destruct (updates_cost (N.of_nat i) (hi idx (S i)) (q + 1) U f1 base s1 (mv_updates v) a R4 C2 R2 Hsub) as [_ U2].
  rewrite U2 in T1; [clear - T1; lia|].
  change (2 ^ 31)%N with 2147483648%N in Ew. change (2 ^ 30)%N with 1073741824%N in G2. clear - Ew G1 G2. lia.
Qed.

(** the loop reaches that layer *)
Lemma for_lb {S} (body : nat -> S -> cost S) : forall c i k s v, c < k -> out (cforN c i body s) = Ok v ->
  (leaves (body (i + c)%nat v) <= leaves (cforN k i body s))%N.
Proof.
  induction c as [|c IH]; intros i k s v Hc Ho; (destruct k as [|k]; [lia|]); cbn [cforN] in *.
  - cbn in Ho. inversion Ho; subst. rewrite Nat.add_0_r. unfold cbind. destruct (out (body i v)); cbn [leaves]; lia.
  - rewrite out_bind in Ho. destruct (out (body i s)) as [s'| |] eqn:Eb; try discriminate. cbn in Ho.
    rewrite (lv_bind _ _ _ Eb). specialize (IH (Datatypes.S i) k s' v ltac:(lia) Ho). rewrite Nat.add_succ_r. rewrite Nat.add_succ_l in IH. lia.
Qed.
Lemma loop_cost idx ss ws ots a : (idx + 1 < 2 ^ N.of_nat (H * d))%N -> full idx (U + 1) -> ~ full idx (U + 2) -> U + 1 < d ->
  length ss = nstates p -> length ws = (d - 1) * wsig -> a3 ots = 0%N -> (forall i, i < d -> layer (if i =? 0 then 1 else 0) idx i ss) ->
  (N.of_nat (tw thc (reinit H thc (dig idx (U + 1) + 1) (fun _ => None))) <= leaves (cforN d 0 (mt_layer_step_c p idx sks seed) (mkMt ss ws a ots (N.of_nat U) (-1))))%N.
Proof.
  intros Lidx F NF Hd I1 I2 Ho Hl. set (m := U + 1) in *. replace (U + 2) with (S m) in NF by (unfold m; clear; lia).
  assert (Hl' : forall i, i < d -> (fun _ => false) i = false -> layer (if i =? 0 then 1 else 0) idx i ss) by (intros i Hi _; now apply Hl).
  destruct (loop_to p Hf Hp HH Hk H3 HU sks seed Hsks Hseed idx m (fun _ => false) (weak p) [] ss ws Lidx Hd F NF Hl' (weak_frame p) 0 _ m
     (start_J p Hf sks seed idx m (fun _ => false) (weak p) [] ss ws ots a I1 I2 Ho)) as (v & E1 & HJ).
  { apply Nat.le_0_l. } { clear - Hd; lia. } { reflexivity. } { intros i _ _ Z. unfold m in Z. clear - Z. lia. }
  rewrite Nat.sub_0_r in E1.
  assert (Eo : out (cforN m 0 (mt_layer_step_c p idx sks seed) (mkMt ss ws a ots (N.of_nat U) (-1))) = Ok v).
  { rewrite <- E1. apply out_forN. intros i s. apply er_layer. }
  pose proof (for_lb _ m 0 d _ v Hd Eo) as B. rewrite Nat.add_0_l in B.
  pose proof (at_c p Hf sks seed idx m (fun _ => false) (weak p) [] ss ws Hl' m v Hd HJ eq_refl) as Lm.
  pose proof HJ as (_ & _ & _ & _ & _ & _ & HJ7 & _). destruct HJ7 as [(_ & K2 & K3)|(Z & _)]; [|clear - Z; lia].
  eapply N.le_trans; [|exact B]. apply huge_cost.
  - exact Hd. - unfold m; clear; lia. - exact F. - exact NF.
  - unfold m in Lm |- *. rewrite Nat.add_1_r in Lm |- *. exact Lm.
  - rewrite K3. unfold m. destruct (Nat.leb_spec (U + 1) U) as [Z|_]; [clear - Z; lia|]. replace (U + 1 - U) with 1 by (clear; lia). vm_compute. discriminate.
  - rewrite K2. clear. lia.
Qed.
End Mt.

(** ** The body up to the loop *)
Lemma peel {A B} (r : res A) (f : A -> cost B) y : out (cbind (free r) f) = Ok y -> exists x, r = Ok x /\ cbind (free r) f = f x.
Proof. unfold cbind at 1. cbn [out free]. destruct r as [x| |]; intros Ho; try discriminate. exists x. split; [reflexivity|apply cbind_ok]. Qed.
Lemma for_keep {S} (I : S -> Prop) (body : nat -> S -> res S) : (forall i s s', body i s = Ok s' -> I s -> I s') ->
  forall k i s s', forN k i body s = Ok s' -> I s -> I s'.
Proof.
  intros Hb. induction k as [|k IH]; intros i s s' Hs Hi; cbn [forN] in Hs; [inversion Hs; now subst|].
  destruct (body i s) as [s1| |] eqn:E1; try discriminate. cbn in Hs. exact (IH _ _ _ Hs (Hb _ _ _ E1 Hi)).
Qed.
Lemma bind_inv {A B} (r : res A) (f : A -> res B) y : bind r f = Ok y -> exists x, r = Ok x /\ f x = Ok y.
Proof. destruct r as [x| |]; cbn; intros Hy; try discriminate. eauto. Qed.
Section WType.
Context {E : Env}.
Lemma chain_type p : forall st i x ps a y a', gen_chain_loop p st i x ps a = Ok (y, a') -> a3 a' = a3 a.
Proof.
  induction st as [|st IH]; intros i x ps a y a' Hs; cbn [gen_chain_loop] in Hs; [inversion Hs; now subst|].
  destruct (i <? wots_w p); [|inversion Hs; now subst].
  apply bind_inv in Hs as ([o b] & Hb & Hs). apply IH in Hs. rewrite Hs. unfold thash_f in Hb. cbv zeta in Hb.
  repeat (apply bind_inv in Hb as (? & _ & Hb)). inversion Hb; subst. reflexivity.
Qed.
Lemma wots_sign_type p m s ps a sg a' : wots_sign p m s ps a = Ok (sg, a') -> a3 a' = a3 a.
Proof.
  intros Hs. unfold wots_sign in Hs. apply bind_inv in Hs as (ls & _ & Hs). apply bind_inv in Hs as ([e b] & He & Hs).
  assert (Hb : a3 b = a3 a).
  { unfold expand_seed in He. cbv zeta in He. apply bind_inv in He as (ps' & _ & He).
    apply (for_keep (fun '(_, b) => a3 b = a3 a)) in He; [exact He| |reflexivity].
    intros i [o1 b1] [o2 b2] Hi Hk. apply bind_inv in Hi as (o & _ & Hi). inversion Hi; subst. exact Hk. }
  apply (for_keep (fun '(_, b) => a3 b = a3 a)) in Hs; [exact Hs| |exact Hb].
  intros i [o1 b1] [o2 b2] Hi Hk. apply bind_inv in Hi as (l & _ & Hi). apply bind_inv in Hi as (x & _ & Hi).
  apply bind_inv in Hi as ([y b3] & Hc & Hi). apply bind_inv in Hi as (sg' & _ & Hi). inversion Hi; subst.
  apply bind_inv in Hc as (x' & _ & Hc). apply chain_type in Hc. rewrite Hc. exact Hk.
Qed.
End WType.

Lemma over {A B} (c : cost A) (f : A -> cost B) y K : out (cbind c f) = Ok y -> (forall x, out c = Ok x -> out (f x) = Ok y -> (K <= leaves (f x))%N) ->
  (K <= leaves (cbind c f))%N.
Proof.
  intros Ho Hx. rewrite out_bind in Ho. destruct (out c) as [x| |] eqn:Ec; try discriminate. cbn in Ho.
  rewrite (lv_bind _ _ _ Ec). specialize (Hx x eq_refl Ho). lia.
Qed.
Lemma at_once {A B} (c : cost A) (f : A -> cost B) K : (K <= leaves c)%N -> (K <= leaves (cbind c f))%N.
Proof. intros Hc. unfold cbind. destruct (out c); cbn [leaves]; lia. Qed.

Section Body.
Context {E : Env}.
Variable p : xmss_params.
Variable Hf : bytes -> bytes.
Hypothesis Hp : params_ok p.
Hypothesis HH : hash_total p Hf.
Notation n := (p_n p).
Notation H := (tree_height p).
Notation k := (bds_k p).
Notation thc := (thcount p).
Notation wsig := (wots_sig_bytes p).
Notation d := (p_d p).
Notation ib := (index_bytes p).
Hypothesis Hk : k < H.
Hypothesis H3 : 3 <= H.
Notation U := ((H - k) / 2).
Hypothesis HU : Nat.min thc (H - 2) <= 2 * U.
Variables (sks prfk rt seed : bytes).
Hypothesis Hsks : length sks = n.
Hypothesis Hprf : length prfk = n.
Hypothesis Hrt : length rt = n.
Hypothesis Hseed : length seed = n.
Notation dig := (dig H).
Notation hi := (hi H).
Notation full := (full H).
Notation mtinv := (mtinv p Hf sks seed).

Let H30 : H <= 30.
Proof. pose proof (po_th p Hp). lia. Qed.
Let Hh : full_height p = H * d.
Proof. rewrite (po_h p Hp). apply Nat.mul_comm. Qed.

Lemma body_lb idx ixb ss ws ext sm m y : length ixb = ib -> (idx + 1 < 2 ^ N.of_nat (H * d))%N -> full idx (U + 1) -> ~ full idx (U + 2) -> U + 1 < d ->
  mtinv idx ss ws -> out (fast_mt_sign_body_c p idx (sk_layout ixb sks prfk rt seed ext) ss ws sm m) = Ok y ->
  (N.of_nat (tw thc (reinit H thc (dig idx (U + 1) + 1) (fun _ => None))) <= leaves (fast_mt_sign_body_c p idx (sk_layout ixb sks prfk rt seed ext) ss ws sm m))%N.
Proof.
  intros Hix Lidx F NF Hd (I1 & I2 & I3 & I4) Ho. pose proof (po_h64 p Hp) as P64.
  set (K := N.of_nat (tw thc (reinit H thc (dig idx (U + 1) + 1) (fun _ => None)))).
  assert (Gl : forall ss2 a ots, length ss2 = nstates p -> a3 ots = 0%N -> (forall i, i < d -> layer p Hf sks seed (if i =? 0 then 1 else 0) idx i ss2) ->
     (K <= leaves (cforN d 0 (mt_layer_step_c p idx sks seed) (mkMt ss2 ws a ots (N.of_nat U) (-1))))%N).
  { intros ss2 a ots J1 J2 J3. apply (loop_cost p Hf Hp HH Hk H3 HU sks seed Hsks Hseed); assumption. }
  clearbody K.
  unfold fast_mt_sign_body_c in Ho |- *. cbv zeta in Ho |- *.
  assert (R1 : rd (sk_layout ixb sks prfk rt seed ext) ib n = Ok sks) by (unfold sk_layout; apply (rd_at _ ixb sks (prfk ++ rt ++ seed ++ ext)); [reflexivity|clear - Hix; lia|clear - Hsks; lia]).
  rewrite R1, cbind_ok in Ho |- *.
  assert (R2 : rd (sk_layout ixb sks prfk rt seed ext) (ib + n) n = Ok prfk) by (apply (rd_at _ (ixb ++ sks) prfk (rt ++ seed ++ ext)); unfold sk_layout; rewrite <- ?app_assoc, ?app_length; reflexivity || lia).
  rewrite R2, cbind_ok in Ho |- *.
  assert (R3 : rd (sk_layout ixb sks prfk rt seed ext) (ib + 3 * n) n = Ok seed) by (apply (rd_at _ (ixb ++ sks ++ prfk ++ rt) seed ext); unfold sk_layout; rewrite <- ?app_assoc, ?app_length; reflexivity || lia).
  rewrite R3, cbind_ok in Ho |- *. clear R1 R2 R3.
  apply (over _ _ _ _ Ho). clear Ho. intros z1 _ Ho.
  apply (over _ _ _ _ Ho). clear Ho. intros z2 _ Ho.
  apply (over _ _ _ _ Ho). clear Ho. intros z3 _ Ho.
  apply (over _ _ _ _ Ho). clear Ho. intros z4 _ Ho.
  destruct (sig_bytes p <? padding_len p + 3 * n); [discriminate|].
  apply (over _ _ _ _ Ho). clear Ho. intros [z5 z6] _ Ho.
  apply (over _ _ _ _ Ho). clear Ho. intros z7 _ Ho.
  apply (over _ _ _ _ Ho). clear Ho. intros z8 _ Ho.
  rewrite (two_h p Hp Hk H3 HU sks seed Hsks Hseed) in Ho |- *. 
  assert (Sh : shr_ull idx H = Ok (hi idx 1)) by (rewrite <- (shr_hi p idx 1); [now rewrite Nat.mul_1_r|clear - H30; lia]).
  rewrite Sh, cbind_ok in Ho |- *. rewrite cbind_ok in Ho |- *.
  assert (Ld : u32 (N.land idx (2 ^ N.of_nat H - 1)) = N.of_nat (dig idx 0)).
  { rewrite <- N.pred_sub, <- N.ones_equiv, N.land_ones. pose proof (dig_lt H idx 0) as D0. rewrite (dig_N H), (hi_0 H). unfold u32. apply N.mod_small.
    assert (A1 : (idx mod 2 ^ N.of_nat H < 2 ^ N.of_nat H)%N) by (apply N.mod_lt, N.pow_nonzero; discriminate).
    assert (A2 : (2 ^ N.of_nat H <= 2 ^ 30)%N) by (apply N.pow_le_mono_r; [discriminate|clear - H30; lia]).
    change (2 ^ 30)%N with 1073741824%N in A2. change (2 ^ 32)%N with 4294967296%N. clear - A1 A2. lia. }
  rewrite Ld in Ho |- *.
  apply (over _ _ _ _ Ho). clear Ho. intros [z9 ots] Hw Ho. cbn [out free] in Hw. apply wots_sign_type in Hw. cbn [set_ots_addr set_tree_addr set_layer_addr set_type a3] in Hw.
  apply (over _ _ _ _ Ho). clear Ho. intros z10 _ Ho.
  apply (over _ _ _ _ Ho). clear Ho. intros z11 _ Ho.
  apply (over _ _ _ _ Ho). clear Ho. intros z12 _ Ho.
  apply (over _ _ _ _ Ho). clear Ho. intros z13 _ Ho.
  apply (over _ _ _ _ Ho). clear Ho. intros [z14 z15] _ Ho.
  rewrite (shl_ull (full_height p)) in Ho |- * by exact P64. rewrite cbind_ok in Ho |- *.
  apply (over _ _ _ _ Ho). clear Ho. intros ss2 Hs2 _.
  apply at_once. rewrite fU.
  destruct (pre_update p Hf Hp HH Hk H3 HU sks seed Hsks Hseed idx ss (set_tree_addr addr_zero (hi idx 1 + 1)) ltac:(clear - Lidx; lia) I1 (I3 0 ltac:(clear - Hd; lia)) ltac:(apply sub_tree; reflexivity)) as (ss2' & P1 & P2 & P3 & P4).
  assert (Es : ss2' = ss2).
  { destruct (_ <? _)%N; [|cbn [out free] in Hs2; congruence]. cut (@Ok (list bds_state) ss2' = Ok ss2); [congruence|]. rewrite <- Hs2, <- P1. rewrite !out_bind. cbn [out free]. destruct (rdc ss d) as [nx| |]; try reflexivity. cbn [bind].
    rewrite out_bind, er_state. reflexivity. }
  subst ss2'. apply Gl; [rewrite P2; exact I1|rewrite Hw; reflexivity|].
  intros i Hi. destruct (Nat.eqb_spec i 0) as [->|Hi0]; [exact P3|]. apply (layer_frame p Hf sks seed 0 idx i ss); [apply P4; clear - Hi; lia|apply P4; clear - Hi0; lia|now apply I3].
Qed.
End Body.
