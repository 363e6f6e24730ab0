(** One layer of the update loop of the multi-tree signing function. *)
From Coq Require Import ZArith.
From Verif Require Import Base ModelUtils ModelParams ModelHash ModelWots ModelCommons ModelCoreFast SpecRfc Lib ProofUtils ProofHash ProofWots ProofCommons ProofTree ProofCore ProofSched ProofBds1 ProofBds2 ProofBds3 ProofBds4 ProofFast1 ProofFast2 ProofMt1.

Lemma base_w_loop_app p a b : forall k inx total bits r, base_w_loop p k a inx total bits = Ok r -> base_w_loop p k (a ++ b) inx total bits = Ok r.
Proof.
  induction k as [|k IH]; intros inx total bits r; cbn [base_w_loop]; [auto|].
  destruct (bits =? 0).
  - unfold rdc. destruct (nth_error a inx) as [x|] eqn:Ex; [|discriminate].
    assert (Hlt : inx < length a) by (apply nth_error_Some; congruence). rewrite nth_error_app1, Ex by exact Hlt. cbn [bind].
    destruct (8 <? wots_log_w p); [discriminate|]. destruct (base_w_loop p k a (S inx) x (8 - wots_log_w p)) as [l| |] eqn:El; try discriminate.
    rewrite (IH _ _ _ _ El). auto.
  - cbn [bind]. destruct (bits <? wots_log_w p); [discriminate|].
    destruct (base_w_loop p k a inx total (bits - wots_log_w p)) as [l| |] eqn:El; try discriminate. rewrite (IH _ _ _ _ El). auto.
Qed.

Lemma N2len a b : a <= b -> (N.of_nat a <= N.of_nat b)%N.
Proof. lia. Qed.
Lemma range_scal s s' : in_range s -> map th_scal (st_treehash s') = map th_scal (st_treehash s) ->
  (N.of_nat (st_stackoffset s') < 2 ^ 32)%N -> (st_next_leaf s' < 2 ^ 32)%N -> in_range s'.
Proof.
  intros (_ & _ & R3) Hm R1 R2. split; [exact R1|]. split; [exact R2|].
  apply Forall_forall. intros t Ht. apply (in_map th_scal) in Ht. rewrite Hm in Ht. apply in_map_iff in Ht as (t' & Et & Ht').
  rewrite Forall_forall in R3. specialize (R3 t' Ht'). unfold th_scal in Et. injection Et as E1 E2 E3 E4. unfold th_range in *.
  rewrite E1, E2, E3, E4 in R3. exact R3.
Qed.
Lemma sub_tree L T a : a0 a = u32 L -> sub_ctx L T (set_tree_addr a T).
Proof.
  intros H0. split; [exact H0|]. split; [apply u32_shiftr_u64|reflexivity].
Qed.

Section Mt.
Context {E : Env}.
Variable p : xmss_params.
Variable Hf : bytes -> bytes.
Hypothesis Hp : params_ok p.
Hypothesis HH : hash_total p Hf.
Notation P := (sp_of p Hf).
Notation n := (p_n p).
Notation H := (tree_height p).
Notation k := (bds_k p).
Notation thc := (thcount p).
Notation wsig := (wots_sig_bytes p).
Notation d := (p_d p).
Hypothesis Hk : k < H.
Hypothesis H3 : 3 <= H.
Notation U := ((H - k) / 2).
Hypothesis HU : Nat.min thc (H - 2) <= 2 * U.
Variables (sks seed : bytes).
Hypothesis Hsks : length sks = n.
Hypothesis Hseed : length seed = n.

Let H2 : H <> 2.
Proof. lia. Qed.
Let H30 : H <= 30.
Proof. pose proof (po_th p Hp). lia. Qed.
Let Hh : full_height p = H * d.
Proof. rewrite (po_h p Hp). apply Nat.mul_comm. Qed.
Let H64 : H * d < 64.
Proof. rewrite <- Hh. apply (po_h64 p Hp). Qed.

Notation dig := (dig H).
Notation hi := (hi H).
Notation full := (full H).
Notation cnt := (cnt H).

(** WOTS+ signatures read only the first n bytes of the message buffer *)
Lemma wots_sign_long L T o M x a : bytes_ok M -> length M = n -> ots_ctx a L T o ->
  exists a', wots_sign p (M ++ x) sks seed a = Ok (concat (wots_sig P seed L T o sks M), a') /\ ots_ctx a' L T o.
Proof.
  intros HM Hl Ha. destruct (wots_sign_spec p Hf Hp HH seed L T o Hseed sks M a Hsks HM Hl Ha) as (a' & Heq & Ha').
  exists a'. split; [|exact Ha']. rewrite <- Heq. unfold wots_sign, chain_lengths, base_w.
  destruct (base_w_loop p (wots_len1 p) M 0 (junk 0) 0) as [l| |] eqn:El.
  - now rewrite (base_w_loop_app p M x _ _ _ _ _ El).
  - unfold wots_sign, chain_lengths, base_w in Heq. rewrite El in Heq. discriminate.
  - unfold wots_sign, chain_lengths, base_w in Heq. rewrite El in Heq. discriminate.
Qed.

Definition A (i : nat) : nat := U + 1 - i.
Definition ex_next (idx : N) (i : nat) : Prop := (hi idx (S i) + 1 < 2 ^ N.of_nat (H * (d - 1 - i)))%N.

(** the tree being used on layer [i] *)
Definition cur (idx : N) (i : nat) (f : sst) (u : nat) (base : list (nat * bytes)) (s : bds_state) : Prop :=
  let q := dig idx i in
  sinv H thc U q u f /\ base_ok p base /\ trav p Hf sks seed (N.of_nat i) (hi idx (S i)) q f base s /\ (st_next_leaf s < 2 ^ 32)%N /\
  (q = 0 -> forall j, f j = None) /\ ((forall j, f j = None) \/ (i <= U /\ u <= i - A i * cnt idx i)).
(** progress of the next tree of layer [i]; [z = 1] for layer 0 after its own update *)
Definition link (z : nat) (idx : N) (i tf e : nat) : Prop :=
  if i =? 0 then e = dig idx 0 + z
  else e = 2 ^ H \/ A i * (2 ^ i * dig idx i + cnt idx i) + tf <= A i * e + wk H thc (dig idx i).
Definition nxt (z : nat) (idx : N) (i : nat) (f : sst) (nx : bds_state) : Prop :=
  shape p nx /\ in_range nx /\
  (ex_next idx i -> exists e, e <= 2 ^ H /\ partial_tree p Hf sks seed (N.of_nat i) (hi idx (S i) + 1) (N.of_nat e) nx /\ link z idx i (tw thc f) e).
Definition layer (z : nat) (idx : N) (i : nat) (ss : list bds_state) : Prop :=
  exists s f u base, nth_error ss i = Some s /\ cur idx i f u base s /\
    (S i < d -> exists nx, nth_error ss (d + i) = Some nx /\ nxt z idx i f nx).

Lemma layer_frame z idx i ss ss' : nth_error ss' i = nth_error ss i -> nth_error ss' (d + i) = nth_error ss (d + i) -> layer z idx i ss -> layer z idx i ss'.
Proof. intros E1 E2 (s & f & u & base & L1 & L2 & L3). exists s, f, u, base. rewrite E1, E2. auto. Qed.

(** *** arithmetic of the index *)
Lemma two_h : shl1_int H = Ok (2 ^ N.of_nat H)%N.
Proof. apply shl1_int_ok. lia. Qed.
Lemma shl_ull x : x < 64 -> shl1_ull x = Ok (2 ^ N.of_nat x)%N.
Proof. intros L. unfold shl1_ull. now replace (x <? 64) with true by (symmetry; now apply Nat.ltb_lt). Qed.
Lemma shr_hi idx i : H * i < 64 -> shr_ull idx (H * i) = Ok (hi idx i).
Proof. intros L. unfold shr_ull. replace (H * i <? 64) with true by (symmetry; now apply Nat.ltb_lt). now rewrite N.shiftr_div_pow2. Qed.
Lemma mul_le_d i : i <= d -> H * i <= H * d.
Proof. intros. now apply Nat.mul_le_mono_l. Qed.
Lemma leaf_dig idx i : u32 (N.land (hi idx i) (2 ^ N.of_nat H - 1)) = N.of_nat (dig idx i).
Proof.
  replace (2 ^ N.of_nat H - 1)%N with (N.ones (N.of_nat H)) by (rewrite N.ones_equiv, N.sub_1_r; reflexivity).
  rewrite N.land_ones, <- (dig_N H idx i). unfold u32. apply N.mod_small.
  pose proof (dig_lt H idx i) as L. assert (2 ^ H <= 2 ^ 30) by (apply Nat.pow_le_mono_r; lia).
  assert (N.of_nat (2 ^ 30) < 2 ^ 32)%N by (rewrite <- pow2_of_nat; reflexivity). lia.
Qed.
Lemma exists_test idx i : i < d -> (idx < 2 ^ N.of_nat (H * d))%N ->
  (u64 ((1 + hi idx (S i)) * 2 ^ N.of_nat H + N.of_nat (dig idx i)) <? 2 ^ N.of_nat (full_height p - H * i))%N = true <-> ex_next idx i.
Proof.
  intros Hi L. pose proof (hi_lt H idx (S i) d L ltac:(lia)) as Lt. pose proof (dig_lt H idx i) as Ld.
  replace (d - S i) with (d - 1 - i) in Lt by lia. set (T := hi idx (S i)) in *. unfold ex_next. fold T.
  set (e := H * (d - 1 - i)) in *. assert (He : full_height p - H * i = e + H) by (rewrite Hh; unfold e; nia). rewrite He.
  assert (Hle : e + H < 64) by (rewrite <- He, Hh; lia).
  rewrite Nat2N.inj_add, N.pow_add_r. set (X := (2 ^ N.of_nat e)%N) in *.
  pose proof (pBn H) as EB. set (B := (2 ^ N.of_nat H)%N) in *.
  assert (HB : (B <> 0)%N) by apply pN.
  assert (S64 : ((1 + T) * B + N.of_nat (dig idx i) < 2 ^ 64)%N).
  { assert (X1 : (X * B <= 2 ^ 63)%N) by (unfold X, B; rewrite <- N.pow_add_r; apply N.pow_le_mono_r; lia).
    assert (X2 : (B <= 2 ^ 30)%N) by (unfold B; apply N.pow_le_mono_r; lia).
    assert (X3 : ((1 + T) * B <= X * B)%N) by (apply N.mul_le_mono_r; lia).
    change (2 ^ 64)%N with (2 ^ 63 + 2 ^ 63)%N. change (2 ^ 30)%N with 1073741824%N in X2. change (2 ^ 63)%N with 9223372036854775808%N in *. lia. }
  unfold u64. rewrite N.mod_small by exact S64. rewrite N.ltb_lt.
  assert (Hd' : (N.of_nat (dig idx i) < B)%N) by lia. generalize dependent (N.of_nat (dig idx i)). intros q _ Hq. clear - Hq HB.
  split; intros L.
  - apply N.lt_nge. intros C. assert (X * B <= (T + 1) * B)%N by (now apply N.mul_le_mono_r). lia.
  - assert ((1 + T + 1) * B <= X * B)%N by (apply N.mul_le_mono_r; lia). lia.
Qed.

Lemma ex_next_S idx i : i < d -> ex_next idx i -> S i < d.
Proof.
  intros Hi Hex. destruct (Nat.eq_dec (S i) d) as [Hl|]; [exfalso|lia]. unfold ex_next in Hex. replace (d - 1 - i) with 0 in Hex by (clear - Hl; lia).
  rewrite Nat.mul_0_r in Hex. change (2 ^ N.of_nat 0)%N with 1%N in Hex. clear - Hex; lia.
Qed.

(** *** updates of a layer after its round *)
Definition tail_code (idx : N) (i : nat) (s : bds_state) (updates : N) (ss : list bds_state) (a : addr) (ws : bytes) (ots : addr) (swap : Z) : res mt_vars :=
    let* (s, updates) := bds_treehash_update p s updates sks seed a in
    let* ss := wrc ss i s in
    let a := set_tree_addr a (hi idx (S i) + 1) in
    let* lim := shl1_ull (full_height p - H * i) in
    if (u64 ((1 + hi idx (S i)) * 2 ^ N.of_nat H + N.of_nat (dig idx i)) <? lim)%N then
      if (0 <? i) && (0 <? updates)%N then
        let* nx := rdc ss (d + i) in
        if (st_next_leaf nx <? 2 ^ N.of_nat (full_height p))%N then
          let* nx := bds_state_update p nx sks seed a in
          let* ss := wrc ss (d + i) nx in
          Ok (mkMt ss ws a ots (u32 (updates + (2 ^ 32 - 1))) swap)
        else Ok (mkMt ss ws a ots updates swap)
      else Ok (mkMt ss ws a ots updates swap)
    else Ok (mkMt ss ws a ots updates swap).

Lemma land_full idx i : i < d -> (N.land (idx + 1) (2 ^ N.of_nat ((i + 1) * H) - 1) =? 0)%N = true <-> full idx (S i).
Proof.
  intros Hi. replace (2 ^ N.of_nat ((i + 1) * H) - 1)%N with (N.ones (N.of_nat (H * S i))) by (rewrite N.ones_equiv, N.sub_1_r; do 3 f_equal; lia).
  rewrite N.land_ones, N.eqb_eq. symmetry. apply full_mod.
Qed.

Lemma step_nofull idx i v : i < d -> ~ full idx (S i) ->
  mt_layer_step p idx sks seed i v =
  (let a := set_tree_addr (set_layer_addr (mv_addr v) (N.of_nat i)) (hi idx (S i)) in
   let* s := rdc (mv_ss v) i in
   let* s := (if (Z.of_nat i =? mv_swap v + 1)%Z then bds_round p s (N.of_nat (dig idx i)) sks seed a else Ok s) in
   tail_code idx i s (mv_updates v) (mv_ss v) a (mv_ws v) (mv_ots v) (mv_swap v)).
Proof.
  intros Hi NF. unfold mt_layer_step. pose proof (mul_le_d (S i) Hi) as M1. pose proof (mul_le_d i ltac:(lia)) as M2.
  rewrite (shl_ull ((i + 1) * H)) by lia. rewrite (shl_ull (full_height p)) by (rewrite Hh; lia). rewrite two_h, !bind_ok.
  destruct (N.land (idx + 1) (2 ^ N.of_nat ((i + 1) * H) - 1) =? 0)%N eqn:EL; [exfalso; apply NF; now apply (land_full idx i Hi)|].
  cbn [negb]. rewrite (shr_hi idx i) by lia. rewrite bind_ok. cbv zeta. rewrite leaf_dig.
  replace (H * (i + 1)) with (H * S i) by lia. rewrite (shr_hi idx (S i)) by lia. rewrite bind_ok. reflexivity.
Qed.

Lemma tail_spec idx i ss s1 q f1 u1 base w a ws ots swap g W dl :
  i < d -> (idx < 2 ^ N.of_nat (H * d))%N -> length ss = nstates p ->
  sub_ctx (N.of_nat i) (hi idx (S i)) a -> sinv H thc U q u1 f1 -> base_ok p base -> trav p Hf sks seed (N.of_nat i) (hi idx (S i)) q f1 base s1 -> w < 128 ->
  (S i < d -> exists nx, nth_error ss (d + i) = Some nx /\ shape p nx /\ in_range nx /\
     (ex_next idx i -> exists e, e <= 2 ^ H /\ partial_tree p Hf sks seed (N.of_nat i) (hi idx (S i) + 1) (N.of_nat e) nx /\
        (0 < i -> e = 2 ^ H \/ A i * g + tw thc f1 <= A i * e + W))) ->
  dl <= 1 -> A i * dl <= w ->
  exists s2 f2 u2 r ss' a',
    tail_code idx i s1 (N.of_nat w) ss a ws ots swap = Ok (mkMt ss' ws a' ots (N.of_nat r) swap) /\
    length ss' = length ss /\ nth_error ss' i = Some s2 /\ (forall j, j <> i -> j <> d + i -> nth_error ss' j = nth_error ss j) /\
    sinv H thc U q u2 f2 /\ trav p Hf sks seed (N.of_nat i) (hi idx (S i)) q f2 base s2 /\ st_next_leaf s2 = st_next_leaf s1 /\
    ((forall j, f2 j = None) \/ u2 = u1 - w) /\ tw thc f2 <= tw thc f1 /\ r <= w /\ (tw thc f1 = 0 -> w <= r + (if i =? 0 then 0 else 1)) /\
    (i = 0 -> nth_error ss' (d + i) = nth_error ss (d + i)) /\
    (0 < i -> S i < d -> exists nx, nth_error ss' (d + i) = Some nx /\ shape p nx /\ in_range nx /\
      (ex_next idx i -> exists e, e <= 2 ^ H /\ partial_tree p Hf sks seed (N.of_nat i) (hi idx (S i) + 1) (N.of_nat e) nx /\
        (e = 2 ^ H \/ A i * (g + dl) + tw thc f2 <= A i * e + W))) /\
    (0 < i -> ex_next idx i -> r <= w - 1) /\ (w = 0 -> nth_error ss' (d + i) = nth_error ss (d + i)).
Proof.
  intros Hi Lidx Lss Hsub Hinv Hb Ht Hw Hnx Hdl Hdw.
  destruct (trav_update p Hf Hp HH Hk HU sks seed (N.of_nat i) (hi idx (S i)) Hsks Hseed q u1 f1 base s1 w a Hinv Hb Ht Hsub Hw)
    as (s2 & f2 & r & Eu & Hr & Hinv2 & Ht2 & Hnl & Hnone & Htw).
  unfold tail_code. rewrite Eu, bind_ok. cbv beta iota zeta.
  assert (Lns : i < length ss) by (rewrite Lss; unfold nstates; lia).
  rewrite wrc_ok, bind_ok by exact Lns.
  rewrite (shl_ull (full_height p - H * i)) by (rewrite Hh; lia). rewrite bind_ok.
  set (ss1 := upd ss i s2).
  assert (L1 : length ss1 = length ss) by apply upd_length.
  assert (N1 : nth_error ss1 i = Some s2) by (apply nth_error_upd_same; exact Lns).
  assert (F1 : forall j, j <> i -> nth_error ss1 j = nth_error ss j) by (intros j Hj; apply nth_error_upd_other; auto).
  assert (Hu2 : (forall j, f2 j = None) \/ u1 - (w - r) = u1 - w).
  { destruct (Nat.eq_dec r 0) as [->|Hr0]; [right; lia|left; apply Hnone; lia]. }
  set (a' := set_tree_addr a (hi idx (S i) + 1)).
  (* the case where the next tree is left alone *)
  assert (Hstay : (0 < i -> S i < d -> ex_next idx i -> r = 0) ->
    exists s3 f3 u3 r3 ss' a3,
      Ok (mkMt ss1 ws a' ots (N.of_nat r) swap) = Ok (mkMt ss' ws a3 ots (N.of_nat r3) swap) /\
      length ss' = length ss /\ nth_error ss' i = Some s3 /\ (forall j, j <> i -> j <> d + i -> nth_error ss' j = nth_error ss j) /\
      sinv H thc U q u3 f3 /\ trav p Hf sks seed (N.of_nat i) (hi idx (S i)) q f3 base s3 /\ st_next_leaf s3 = st_next_leaf s1 /\
      ((forall j, f3 j = None) \/ u3 = u1 - w) /\ tw thc f3 <= tw thc f1 /\ r3 <= w /\ (tw thc f1 = 0 -> w <= r3 + (if i =? 0 then 0 else 1)) /\
      (i = 0 -> nth_error ss' (d + i) = nth_error ss (d + i)) /\
      (0 < i -> S i < d -> exists nx, nth_error ss' (d + i) = Some nx /\ shape p nx /\ in_range nx /\
        (ex_next idx i -> exists e, e <= 2 ^ H /\ partial_tree p Hf sks seed (N.of_nat i) (hi idx (S i) + 1) (N.of_nat e) nx /\
          (e = 2 ^ H \/ A i * (g + dl) + tw thc f3 <= A i * e + W))) /\
      (0 < i -> ex_next idx i -> r3 <= w - 1) /\ (w = 0 -> nth_error ss' (d + i) = nth_error ss (d + i))).
  { intros Hrz. exists s2, f2, (u1 - (w - r)), r, ss1, a'. split; [reflexivity|]. split; [exact L1|]. split; [exact N1|].
    split; [intros j J1 J2; now apply F1|]. split; [exact Hinv2|]. split; [exact Ht2|]. split; [exact Hnl|]. split; [exact Hu2|].
    split; [lia|]. split; [exact Hr|]. split; [intros Z; rewrite Z in Htw; lia|]. split; [intros _; apply F1; lia|].
    split; [|split; [intros Hi0 Hex; rewrite (Hrz Hi0 (ex_next_S idx i Hi Hex) Hex); apply Nat.le_0_l|intros _; apply F1; lia]].
    intros Hi0 HSi. destruct (Hnx HSi) as (nx & X1 & X2 & X3 & X4). exists nx. split; [rewrite F1 by lia; exact X1|]. split; [exact X2|]. split; [exact X3|].
    intros Hex. destruct (X4 Hex) as (e & Y1 & Y2 & Y3). exists e. split; [exact Y1|]. split; [exact Y2|]. specialize (Hrz Hi0 HSi Hex). subst r.
    destruct (Y3 Hi0) as [Y|Y]; [left; exact Y|right]. rewrite Nat.mul_add_distr_l. lia. }
  destruct (_ <? _)%N eqn:Ee.
  2:{ apply Hstay. intros _ _ Hex. apply (exists_test idx i Hi Lidx) in Hex. rewrite Hex in Ee. discriminate. }
  assert (Hex : ex_next idx i) by (now apply (exists_test idx i Hi Lidx)).
  destruct ((0 <? i) && (0 <? N.of_nat r)%N) eqn:Eg.
  2:{ apply Hstay. intros Hi0 _ _. apply andb_false_iff in Eg as [Eg|Eg]; [apply Nat.ltb_ge in Eg; lia|apply N.ltb_ge in Eg; lia]. }
  apply andb_prop in Eg as [Ei0 Er0]. apply Nat.ltb_lt in Ei0. apply N.ltb_lt in Er0.
  assert (HSi : S i < d) by (exact (ex_next_S idx i Hi Hex)).
  destruct (Hnx HSi) as (nx & X1 & X2 & X3 & X4). destruct (X4 Hex) as (e & Y1 & Y2 & Y3). specialize (Y3 Ei0).
  assert (X1' : nth_error ss1 (d + i) = Some nx) by (rewrite F1 by lia; exact X1).
  rewrite (rdc_some _ _ nx X1'), bind_ok.
  assert (Hnle : (st_next_leaf nx <? 2 ^ N.of_nat (full_height p))%N = true).
  { apply N.ltb_lt. rewrite (pt_next _ _ _ _ _ _ _ _ Y2), Hh.
    assert (Le : (N.of_nat e <= 2 ^ N.of_nat H)%N) by (rewrite pBn; lia).
    eapply N.le_lt_trans; [exact Le|]. apply N.pow_lt_mono_r; [lia|]. assert (M2 : H * 2 <= H * d) by (apply Nat.mul_le_mono_l; lia). lia. }
  rewrite Hnle.
  assert (Hu32 : u32 (N.of_nat r + (2 ^ 32 - 1)) = N.of_nat (r - 1)).
  { unfold u32. replace (N.of_nat r + (2 ^ 32 - 1))%N with (N.of_nat (r - 1) + 1 * 2 ^ 32)%N by (clear - Er0; lia).
    rewrite N.mod_add by discriminate. apply N.mod_small. assert (r < 128) by lia. change (2 ^ 32)%N with 4294967296%N. lia. }
  assert (Hn2 : forall j, f2 j = None) by (apply Hnone; lia).
  assert (Htw2 : tw thc f2 = 0) by (now apply tw_none).
  assert (Hup : exists nx' e', bds_state_update p nx sks seed a' = Ok nx' /\ shape p nx' /\ in_range nx' /\ e' <= 2 ^ H /\
     partial_tree p Hf sks seed (N.of_nat i) (hi idx (S i) + 1) (N.of_nat e') nx' /\ (e' = 2 ^ H \/ e' = e + 1)).
  { destruct (Nat.eq_dec e (2 ^ H)) as [->|Hne].
    - exists nx, (2 ^ H). split; [|split; [exact X2|split; [exact X3|split; [lia|split; [exact Y2|left; reflexivity]]]]]. apply (update_full p Hp Hk sks seed Hsks Hseed). rewrite (pt_next _ _ _ _ _ _ _ _ Y2). now rewrite pBn.
    - destruct (bds_state_update_spec p Hf Hp HH Hk sks seed (N.of_nat i) (hi idx (S i) + 1) Hsks Hseed (N.of_nat e) nx a') as (nx' & Z1 & Z2 & Z3 & Z4).
      + exact H2. + rewrite pBn; lia. + exact Y2.
      + apply sub_tree. exact (proj1 Hsub).
      + exists nx', (e + 1). replace (N.of_nat (e + 1)) with (N.of_nat e + 1)%N by lia. split; [exact Z1|].
        split; [exact (pt_shape _ _ _ _ _ _ _ _ Z2)|]. split; [|split; [lia|split; [exact Z2|auto]]].
        apply (range_scal nx nx' X3 Z4).
        * rewrite (pt_off _ _ _ _ _ _ _ _ Z2). eapply N.le_lt_trans; [apply N2len, bst_length|]. change (2 ^ 32)%N with 4294967296%N. lia.
        * rewrite (pt_next _ _ _ _ _ _ _ _ Z2). assert (Le : (N.of_nat e + 1 <= 2 ^ N.of_nat H)%N) by (rewrite pBn; lia).
          eapply N.le_lt_trans; [exact Le|]. apply N.pow_lt_mono_r; lia. }
  destruct Hup as (nx' & e' & Z1 & Z2 & Z3 & Z4 & Z5 & Z6).
  rewrite Z1, bind_ok. rewrite wrc_ok by (rewrite L1, Lss; unfold nstates; lia). rewrite bind_ok, Hu32.
  exists s2, f2, (u1 - (w - r)), (r - 1), (upd ss1 (d + i) nx'), a'.
  split; [reflexivity|]. split; [rewrite upd_length; exact L1|].
  split; [rewrite nth_error_upd_other by lia; exact N1|].
  split; [intros j J1 J2; rewrite nth_error_upd_other by auto; now apply F1|].
  split; [exact Hinv2|]. split; [exact Ht2|]. split; [exact Hnl|]. split; [exact Hu2|].
  split; [lia|]. split; [lia|]. split; [intros Zt; rewrite Zt in Htw; destruct (Nat.eqb_spec i 0); lia|]. split; [lia|].
  split; [|split; [intros _ _; clear - Hr Er0; lia|intros W0; exfalso; clear - Hr Er0 W0; lia]].
  intros _ _. exists nx'. split; [apply nth_error_upd_same; rewrite L1, Lss; unfold nstates; lia|]. split; [exact Z2|]. split; [exact Z3|].
  intros _. exists e'. split; [exact Z4|]. split; [exact Z5|]. destruct Z6 as [Z6|Z6]; [left; exact Z6|].
  destruct Y3 as [Y3|Y3]; [left; lia|right]. rewrite Z6, Htw2, !Nat.mul_add_distr_l.
  assert (Md : A i * dl <= A i * 1) by (now apply Nat.mul_le_mono_l). rewrite Nat.mul_1_r in *. lia.
Qed.
End Mt.
