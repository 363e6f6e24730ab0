(** The part of a signature that the fast core takes from the stored traversal state. *)
From Verif Require Import Base Lib ModelUtils ModelParams ModelHash ModelWots ModelCommons ModelCore ModelCoreFast ModelXmss SpecRfc SpecParams SpecApi SpecComp
  SpecFast ProofUtils ProofHash ProofWots ProofCommons ProofCore ProofParams ProofApi ProofHistory ProofMain ProofFast1 ProofFast2 ProofFast3 ProofFast4 ProofFast5 ProofFast6 ProofFast7 ProofAny SpecTools.

Section Core.
Context {E : Env}.
Variable p : xmss_params.
Hypothesis Hp : params_ok p.
Notation n := (p_n p).
Notation ib := (index_bytes p).
Notation wsig := (wots_sig_bytes p).
Notation H := (tree_height p).

Definition auth_of (ss : list bds_state) (i : nat) : bytes := match nth_error ss i with Some s => firstn (H * n) (st_auth s) | None => [] end.
Definition piece (ss : list bds_state) (ws : bytes) (i : nat) : bytes := firstn wsig (skipn ((i - 1) * wsig) ws) ++ auth_of ss i.
Definition stored_part (ss : list bds_state) (ws : bytes) : bytes := auth_of ss 0 ++ concat (map (piece ss ws) (seq 1 (p_d p - 1))).
Definition released (sm : bytes) : bytes := firstn (sig_bytes p - (ib + n + wsig)) (skipn (ib + n + wsig) sm).

Lemma rd_inv b o l x : rd b o l = Ok x -> x = firstn l (skipn o b) /\ length x = l.
Proof. unfold rd. destruct (Nat.leb_spec (o + l) (length b)); [|discriminate]. intros Hx. assert (Ex : x = firstn l (skipn o b)) by congruence. split; [exact Ex|]. rewrite Ex, firstn_length, skipn_length. lia. Qed.
Lemma rdc_inv {A} (l : list A) i x : rdc l i = Ok x -> nth_error l i = Some x.
Proof. unfold rdc. destruct (nth_error l i); congruence. Qed.
Lemma wr_end b o d b' k : wr b o d = Ok b' -> k <= o -> firstn (o - k + length d) (skipn k b') = firstn (o - k) (skipn k b) ++ d.
Proof.
  intros Hw Hk. apply wr_inv in Hw. destruct Hw as [Hl ->]. rewrite skipn_app, firstn_length. replace (k - Nat.min o (length b)) with 0 by lia. rewrite skipn_O.
  rewrite (firstn_skipn_comm (o - k)). replace (k + (o - k)) with o by lia. rewrite app_assoc. apply firstn_app_len.
  rewrite app_length, skipn_length, firstn_length. lia.
Qed.

Lemma body_released idx sk ss ws sm m o : p_d p = 1 -> ib = 4 ->
  fast_sign_body p idx sk ss ws sm m = Ok o -> released (so_sm o) = stored_part ss ws.
Proof.
  intros Hd Hib H0. unfold fast_sign_body in H0. cbv zeta in H0.
  inv1 H0. inv1 H0. inv1 H0. inv1 H0. apply bind_inv in H0. destruct H0 as (sk1 & Wsk & H0). inv1 H0.
  apply bind_inv in H0. destruct H0 as (sm1 & W1 & H0). inv1 H0.
  destruct (sig_bytes p <? padding_len p + 3 * n); [discriminate|].
  apply bind_inv in H0. destruct H0 as ((mh & sm2) & W2 & H0).
  apply bind_inv in H0. destruct H0 as (sm3 & W3 & H0). apply bind_inv in H0. destruct H0 as (sm4 & W4 & H0).
  apply bind_inv in H0. destruct H0 as ((sg & oa) & Wg & H0). apply bind_inv in H0. destruct H0 as (sm5 & W5 & H0).
  apply bind_inv in H0. destruct H0 as (au & Ra & H0). apply bind_inv in H0. destruct H0 as (sm6 & W6 & H0). inv1 H0. inv1 H0.
  apply bind_inv in H0. destruct H0 as (sm7 & W7 & H0). inv1 H0. apply bind_inv in H0. destruct H0 as (sk2 & Wser & H0).
  assert (Eo : 4 + n + wsig + H * n = sig_bytes p).
  { rewrite (po_sig p Hp), (po_h p Hp), Hd, Hib. lia. }
  injection H0 as <-. cbn [so_sm]. unfold released, stored_part. rewrite Hd. cbn [Nat.sub seq map concat]. rewrite app_nil_r.
  apply rd_inv in Ra. destruct Ra as [-> La]. rewrite skipn_O in *.
  rewrite (wr_slice _ _ _ _ _ _ W7) by lia. replace (sig_bytes p - (ib + n + wsig)) with (H * n) by lia. rewrite Hib.
  pose proof (wr_at _ _ _ _ W6) as Ha. rewrite La in Ha. rewrite Ha. unfold auth_of.
  match goal with Hx : rdc ss 0 = Ok _ |- _ => rewrite (rdc_inv _ _ _ Hx) end. reflexivity.
Qed.

Lemma mt_body_released idx sk ss ws sm m o :
  fast_mt_sign_body p idx sk ss ws sm m = Ok o -> released (so_sm o) = stored_part ss ws.
Proof.
  intros H0. unfold fast_mt_sign_body in H0. cbv zeta in H0.
  inv1 H0. inv1 H0. inv1 H0. apply bind_inv in H0. destruct H0 as (sk1 & Wsk & H0). inv1 H0.
  apply bind_inv in H0. destruct H0 as (sm1 & W1 & H0). inv1 H0.
  destruct (sig_bytes p <? padding_len p + 3 * n); [discriminate|].
  apply bind_inv in H0. destruct H0 as ((mh & sm2) & W2 & H0).
  apply bind_inv in H0. destruct H0 as (sm3 & W3 & H0). apply bind_inv in H0. destruct H0 as (sm4 & W4 & H0). inv1 H0. inv1 H0.
  apply bind_inv in H0. destruct H0 as ((sg & oa) & Wg & H0). apply bind_inv in H0. destruct H0 as (sm5 & W5 & H0).
  apply bind_inv in H0. destruct H0 as (s0 & Rs & H0). apply bind_inv in H0. destruct H0 as (au & Ra & H0).
  apply bind_inv in H0. destruct H0 as (sm6 & W6 & H0). apply bind_inv in H0. destruct H0 as ((sm7 & off) & Wl & H0).
  inv1 H0. inv1 H0. inv1 H0.
  apply bind_inv in H0. destruct H0 as (sm8 & W8 & H0). apply bind_inv in H0. destruct H0 as (sk2 & Wser & H0).
  apply rd_inv in Ra. destruct Ra as [-> La]. rewrite skipn_O in *. apply rdc_inv in Rs.
  set (st := ib + n + wsig) in *.
  assert (HL : off = sig_bytes p /\ firstn (off - st) (skipn st sm7) = stored_part ss ws).
  { apply (forN_pinv (fun j '(s, q) => q = ib + n + j * (wsig + H * n) /\ firstn (q - st) (skipn st s) = auth_of ss 0 ++ concat (map (piece ss ws) (seq 1 (j - 1))))) in Wl.
    - destruct Wl as (R3 & R4). pose proof (po_d p Hp) as Hd. split; [|rewrite R4; unfold stored_part; do 4 f_equal; lia].
      rewrite R3, (po_sig p Hp), (po_h p Hp). replace (1 + (p_d p - 1)) with (p_d p) by lia. lia.
    - intros j (s & q) (s' & q') Hj (R3 & R4) Hb. apply bind_inv in Hb. destruct Hb as (sg' & G1 & Hb). apply bind_inv in Hb. destruct Hb as (t1 & T1 & Hb).
      apply bind_inv in Hb. destruct Hb as (si & G2 & Hb). apply bind_inv in Hb. destruct Hb as (au' & G3 & Hb).
      apply bind_inv in Hb. destruct Hb as (t2 & T2 & Hb). injection Hb as <- <-.
      apply rd_inv in G1. destruct G1 as [Q1 L1]. apply rd_inv in G3. destruct G3 as [Q3 L3]. apply rdc_inv in G2. rewrite skipn_O in Q3.
      assert (Hq : st <= q) by (rewrite R3; unfold st; assert (wsig + H * n <= j * (wsig + H * n)) by (rewrite <- (Nat.mul_1_l (wsig + H * n)) at 1; apply Nat.mul_le_mono_r; lia); lia).
      split; [rewrite R3; lia|].
      pose proof (wr_end _ _ _ _ st T2 ltac:(lia)) as X2. pose proof (wr_end _ _ _ _ st T1 Hq) as X1. rewrite L3 in X2. rewrite L1 in X1.
      replace (q + wsig - st + H * n) with (q + wsig + H * n - st) in X2 by lia. replace (q - st + wsig) with (q + wsig - st) in X1 by lia.
      rewrite X2, X1, R4. replace (S j - 1) with (S (j - 1)) by lia. rewrite seq_S, map_app, concat_app. cbn [map concat]. rewrite app_nil_r, <- !app_assoc. do 2 f_equal.
      replace (1 + (j - 1)) with j by lia. unfold piece, auth_of. rewrite G2, Q1, Q3. reflexivity.
    - split; [lia|]. cbn [Nat.sub seq map concat]. rewrite app_nil_r. pose proof (wr_at _ _ _ _ W6) as Ha. rewrite La in Ha. unfold auth_of. rewrite Rs. rewrite <- Ha. f_equal. unfold st. lia. }
  destruct HL as (Eo & HT). injection H0 as <-. cbn [so_sm]. unfold released. fold st. rewrite <- Eo, <- HT.
  apply (wr_slice _ _ _ _ st (off - st) W8). pose proof (po_sig p Hp) as Hsg. rewrite Eo. unfold st. rewrite Hsg, (po_h p Hp).
  assert (wsig + H * n <= p_d p * (wsig + H * n)) by (rewrite <- (Nat.mul_1_l (wsig + H * n)) at 1; apply Nat.mul_le_mono_r; exact (po_d p Hp)). lia.
Qed.
End Core.

Section Row.
Context {E : Env}.
Variables (mt : bool) (r : row).
Hypothesis Hr : In r (rows mt).
Notation p := (row_params r (sk_fast r)).
Notation ib := (idx_size r).
Notation n := (r_n r).
Notation top := (2 ^ N.of_nat (r_h r))%N.

(** a returning call below the last index, whatever the key holds *)
Lemma core_released sk ss ws sm smlen m o : r_h r <= 60 -> bytes_ok (firstn ib sk) -> ib <= length sk -> (os2ip (firstn ib sk) + 1 < top)%N ->
  xmssmt_deserialize_state p sk = Ok (ss, ws) -> fsg mt p sk sm smlen m = Ok o -> released p (so_sm o) = stored_part p ss ws.
Proof.
  intros Hh Hb Hlen Hlt Hde H0. pose proof (fp_ok mt r Hr) as Hp. pose proof (fp_ib r) as Eib. pose proof (fp_h r) as Eh. pose proof (po_ib_le p Hp) as [Hi8 _].
  assert (Hx : rd sk 0 (index_bytes p) = Ok (firstn ib sk)) by (rewrite Eib, rd_ok by lia; reflexivity).
  assert (Hu : bytes_to_ull (firstn ib sk) = Ok (os2ip (firstn ib sk))) by (apply bytes_to_ull_spec; [rewrite firstn_length; lia|exact Hb]).
  assert (Hs : shl1_ull (full_height p) = Ok top) by (rewrite Eh; unfold shl1_ull; destruct (Nat.ltb_spec (r_h r) 64); [reflexivity|lia]).
  unfold fsg in H0. assert (Hmt : mt = false -> p_d p = 1 /\ index_bytes p = 4).
  { intros ->. rewrite Eib. assert (Ha : forallb (fun q => Nat.eqb (r_d q) 1 && Nat.eqb (sp_ib (row_sp q)) 4) (rows false) = true) by (vm_compute; reflexivity).
    rewrite forallb_forall in Ha. specialize (Ha r Hr). rewrite andb_true_iff, !Nat.eqb_eq in Ha. rewrite row_dd. exact Ha. }
  destruct mt.
  - unfold fast_xmssmt_core_sign in H0. cbv zeta in H0. rewrite Hde, bind_ok, Hx, bind_ok, Hu, bind_ok, Hs, bind_ok in H0.
    destruct (N.leb_spec (top - 1) (os2ip (firstn ib sk))) as [Hge|_]; [lia|]. exact (mt_body_released p Hp _ _ _ _ _ _ _ H0).
  - destruct (Hmt eq_refl) as [Hd H4]. unfold fast_xmss_core_sign in H0. cbv zeta in H0. rewrite Hde, bind_ok in H0. rewrite <- H4 in H0 at 1. rewrite Hx, bind_ok, Hu, bind_ok, Hs, bind_ok in H0.
    destruct (N.leb_spec (top - 1) (os2ip (firstn ib sk))) as [Hge|_]; [lia|]. exact (body_released p Hp _ _ _ _ _ _ _ Hd H4 H0).
Qed.
End Row.

Section Row2.
Context {E : Env}.
Variables (mt : bool) (r : row).
Hypothesis Hr : In r (rows mt).
Notation p := (row_params r (sk_fast r)).
Notation ib := (idx_size r).
Notation n := (r_n r).
Notation top := (2 ^ N.of_nat (r_h r))%N.

Lemma deser_row ixb a b c d ext : length ixb = ib -> length a = n -> length b = n -> length c = n -> length d = n -> forall ss ws,
  ext = concat (map (store_state p) ss) ++ ws -> states_ok p ss -> length ws = (r_d r - 1) * wots_sig_bytes p ->
  xmssmt_deserialize_state p (sk_layout ixb a b c d ext) = Ok (ss, ws).
Proof.
  intros Hix La Lb Lc Ld ss ws He Hss Hws.
  replace (sk_layout ixb a b c d ext) with ((ixb ++ a ++ b ++ c ++ d) ++ concat (map (store_state p) ss) ++ ws ++ []).
  - apply deserialize_spec; try assumption; [exact (fp_kH mt r Hr)|exact (fp_H30 mt r Hr)|exact (fp_d mt r Hr)|rewrite !app_length, (fp_ib r), (row_n r (sk_fast r)); lia|].
    rewrite row_dd. exact Hws.
  - rewrite He, app_nil_r. unfold sk_layout. rewrite <- !app_assoc. reflexivity.
Qed.

Lemma released_of_ext e : ser_image p e -> exists T, forall i a b c d sm l m o, length a = n -> length b = n -> length c = n -> length d = n -> r_h r <= 60 ->
  (i + 1 < top)%N -> sign mt fast_core (secret_key r i a b c d ++ e) sm l m = Ok o -> released p (so_sm o) = T.
Proof.
  intros (ss & ws & He & Hss & Hws). rewrite row_dd in Hws. exists (stored_part p ss ws).
  intros i a b c d sm l m o X1 X2 X3 X4 Hh Hi Hsg. rewrite <- layout_ext, (fsign_eq mt r Hr) in Hsg. apply bind_inv in Hsg. destruct Hsg as (o' & Ho & Hq).
  assert (Eo : so_sm o = so_sm o') by (assert (Z := f_equal (fun v => match v with Ok x => so_sm x | _ => [] end) Hq); cbv beta iota in Z; rewrite <- Z; reflexivity). rewrite Eo.
  assert (F : firstn ib (sk_layout (toByte i ib) a b c d e) = toByte i ib) by (unfold sk_layout; apply firstn_app_len; now rewrite toByte_length).
  refine (core_released mt r Hr _ ss ws sm l m o' Hh _ _ _ (deser_row _ a b c d e (toByte_length _ _) X1 X2 X3 X4 ss ws He Hss Hws) Ho).
  - rewrite F. apply toByte_ok.
  - unfold sk_layout. rewrite app_length, toByte_length. lia.
  - pose proof (pow_h_le mt r Hr). rewrite F, os2ip_toByte, N.mod_small by lia. exact Hi.
Qed.

(** the signature behind the lowest WOTS signature *)
Lemma released_upper sm : released p sm = upper_part r sm.
Proof.
  pose proof (fp_ok mt r Hr) as Hp. assert (Hw : wots_sig_bytes p = sp_len (row_sp r) * n) by (rewrite (po_wsig p Hp), (row_n r (sk_fast r)); rewrite <- (sp_len_of p (row_hash r) Hp), (sp_of_row r (sk_fast r)); reflexivity).
  assert (Hs : ib + n + sp_len (row_sp r) * n <= sig_size r).
  { pose proof (po_sig p Hp) as X. rewrite (fp_sig r), (fp_ib r), (row_n r (sk_fast r)), Hw in X. pose proof (po_d p Hp) as Hd.
    rewrite X. clear X Hw. generalize dependent (sp_len (row_sp r) * n). intros w. assert (w <= p_d p * w) by (clear - Hd; nia). lia. }
  unfold released, upper_part. rewrite (fp_sig r), (fp_ib r), (row_n r (sk_fast r)), Hw, firstn_skipn_comm. do 2 f_equal. lia.
Qed.

Lemma same_state_same_path k1 k2 sm1 l1 m1 o1 sm2 l2 m2 o2 : r_h r <= 60 -> key_of r (fast_size r) k1 -> key_of r (fast_size r) k2 ->
  skipn (4 + sk_size r) k1 = skipn (4 + sk_size r) k2 -> (sk_index r k1 + 1 < top)%N -> (sk_index r k2 + 1 < top)%N ->
  sign mt fast_core k1 sm1 l1 m1 = Ok o1 -> sign mt fast_core k2 sm2 l2 m2 = Ok o2 ->
  upper_part r (so_sm o1) = upper_part r (so_sm o2).
Proof.
  intros Hh Hk1 Hk2 Hsame I1 I2 S1 S2. rewrite <- !released_upper.
  destruct (fast_key_split mt r Hr k1 Hk1) as (e1 & ((A1 & A2 & A3 & A4) & _) & E1 & L1 & B1 & T1).
  destruct (fast_key_split mt r Hr k2 Hk2) as (e2 & ((C1 & C2 & C3 & C4) & _) & E2 & L2 & B2 & T2).
  assert (Ee : e1 = e2).
  { assert (HX : forall i a b c d e, length a = n -> length b = n -> length c = n -> length d = n -> skipn (4 + sk_size r) (secret_key r i a b c d ++ e) = e).
    { intros i a b c d e X1 X2 X3 X4. apply skipn_app_len. unfold secret_key, sk_size. rewrite !app_length, !toByte_length. lia. }
    rewrite E1, E2, !HX in Hsame by assumption. exact Hsame. }
  subst e2. destruct (released_of_ext e1 (ser_bytes_ok mt r Hr e1 L1 B1)) as (T & HT).
  rewrite E1 in S1. rewrite E2 in S2.
  rewrite (HT _ _ _ _ _ _ _ _ _ A1 A2 A3 A4 Hh I1 S1). symmetry. exact (HT _ _ _ _ _ _ _ _ _ C1 C2 C3 C4 Hh I2 S2).
Qed.
End Row2.
