(** Fast core: the traversal state inside the secret key. *)
From Verif Require Import Base Lib SpecRfc ModelUtils ModelParams ModelHash ModelWots ModelCommons ModelCore
  ModelCoreFast ProofUtils ProofHash ProofWots ProofCommons ProofTree ProofCore ProofSched ProofBds1 ProofBds2 ProofBds3 ProofBds4.

Lemma ull_field x k : (x < 256 ^ N.of_nat k)%N -> k <= 8 -> bytes_to_ull (toByte x k) = Ok x.
Proof.
  intros Hx Hk. rewrite bytes_to_ull_spec; [|rewrite toByte_length; exact Hk|apply toByte_ok].
  rewrite os2ip_toByte, N.mod_small by exact Hx. reflexivity.
Qed.
Lemma rd_shift (a b : bytes) o l k : k = length a + o -> rd (a ++ b) k l = rd b o l.
Proof.
  intros ->. destruct (le_lt_dec (o + l) (length b)) as [Hle|Hgt].
  - rewrite !rd_ok; [|exact Hle|rewrite app_length; lia]. f_equal. f_equal.
    rewrite skipn_app, skipn_all2 by lia. cbn [app]. f_equal. lia.
  - rewrite !rd_oob; [reflexivity|exact Hgt|rewrite app_length; lia].
Qed.
Lemma rd_head (x b : bytes) l : l = length x -> rd (x ++ b) 0 l = Ok x.
Proof. intros Hl. exact (rd_app [] x b 0 l eq_refl Hl). Qed.

Section Ser.
Context {E : Env}.
Variable p : xmss_params.
Notation n := (p_n p).
Notation H := (tree_height p).
Notation k := (bds_k p).
Notation thc := (thcount p).
Hypothesis Hk : k < H.
Hypothesis H30 : H <= 30.

(** field ranges of a state: 4 bytes for the stack offset and next_leaf, 1, 4, 1, 1 for an instance *)
Definition th_range (t : treehash_inst) : Prop :=
  th_h t < 256 /\ (th_next_idx t < 2 ^ 32)%N /\ th_stackusage t < 256 /\ (th_completed t < 256)%N.
Definition in_range (s : bds_state) : Prop :=
  (N.of_nat (st_stackoffset s) < 2 ^ 32)%N /\ (st_next_leaf s < 2 ^ 32)%N /\ Forall th_range (st_treehash s).
Definition th_bytes : nat := 7 + n.
Definition state_bytes : nat :=
  (H + 1) * n + (4 + ((H + 1) + (H * n + ((H / 2) * n + (thc * th_bytes + (rcount p * n + 4)))))).

Lemma store_th_length t : length (th_node t) = n -> length (store_th p t) = th_bytes.
Proof. intros Hl. unfold store_th. rewrite !app_length, !ull_to_bytes_spec, !toByte_length, Hl. reflexivity. Qed.
Lemma store_ths_length ts : Forall (fun t => length (th_node t) = n) ts -> length (concat (map (store_th p) ts)) = length ts * th_bytes.
Proof.
  induction 1 as [|t ts Ht _ IH]; [reflexivity|]. cbn [map concat length]. rewrite app_length, IH, store_th_length by exact Ht. lia.
Qed.
Lemma shape_nodes s : shape p s -> Forall (fun t => length (th_node t) = n) (st_treehash s).
Proof.
  intros Hs. apply Forall_forall. intros t Ht. apply In_nth_error in Ht as [j Hj]. exact (sh_nodes p s Hs j t Hj).
Qed.
Lemma store_state_length s : shape p s -> length (store_state p s) = state_bytes.
Proof.
  intros Hs. unfold store_state, state_bytes. rewrite !app_length, !ull_to_bytes_spec, !toByte_length.
  rewrite store_ths_length by (now apply shape_nodes).
  rewrite (sh_stack p s Hs), (sh_levels p s Hs), (sh_auth p s Hs), (sh_keep p s Hs), (sh_th p s Hs), (sh_retain p s Hs). reflexivity.
Qed.

Lemma load_th_spec t a c : th_range t -> length (th_node t) = n -> load_th p (a ++ store_th p t ++ c) (length a) = Ok t.
Proof.
  intros (R1 & R2 & R3 & R4) Hl. unfold load_th, store_th. rewrite !ull_to_bytes_spec.
  set (b1 := toByte (N.of_nat (th_h t)) 1). set (b2 := toByte (th_next_idx t) 4). set (b3 := toByte (N.of_nat (th_stackusage t)) 1).
  set (b4 := toByte (th_completed t) 1).
  assert (L1 : length b1 = 1) by apply toByte_length. assert (L2 : length b2 = 4) by apply toByte_length.
  assert (L3 : length b3 = 1) by apply toByte_length. assert (L4 : length b4 = 1) by apply toByte_length.
  rewrite <- !app_assoc.
  rewrite (rd_shift a _ 0) by lia. rewrite rd_head by (symmetry; exact L1). rewrite bind_ok. unfold b1 at 1. rewrite ull_field by (lia || (cbn; lia)). rewrite bind_ok.
  rewrite (rd_shift a _ 1) by lia. rewrite (rd_shift b1 _ 0) by lia. rewrite rd_head by (symmetry; exact L2). rewrite bind_ok. unfold b2 at 1. rewrite ull_field by (lia || exact R2). rewrite bind_ok.
  rewrite (rd_shift a _ 5) by lia. rewrite (rd_shift b1 _ 4) by lia. rewrite (rd_shift b2 _ 0) by lia. rewrite rd_head by (symmetry; exact L3). rewrite bind_ok. unfold b3 at 1. rewrite ull_field by (lia || (cbn; lia)). rewrite bind_ok.
  rewrite (rd_shift a _ 6) by lia. rewrite (rd_shift b1 _ 5) by lia. rewrite (rd_shift b2 _ 1) by lia. rewrite (rd_shift b3 _ 0) by lia. rewrite rd_head by (symmetry; exact L4). rewrite bind_ok. unfold b4 at 1. rewrite ull_field by (lia || exact R4). rewrite bind_ok.
  rewrite (rd_shift a _ 7) by lia. rewrite (rd_shift b1 _ 6) by lia. rewrite (rd_shift b2 _ 2) by lia. rewrite (rd_shift b3 _ 1) by lia. rewrite (rd_shift b4 _ 0) by lia.
  rewrite rd_head by (symmetry; exact Hl). rewrite bind_ok. rewrite !Nat2N.id. destruct t; reflexivity.
Qed.

Lemma load_ths_spec ts c : Forall th_range ts -> Forall (fun t => length (th_node t) = n) ts -> forall a o, o = length a ->
  forN (length ts) 0 (fun j l => let* t := load_th p (a ++ concat (map (store_th p) ts) ++ c) (o + j * (7 + n)) in Ok (l ++ [t])) [] = Ok ts.
Proof.
  intros Hr Hl a o ->.
  match goal with |- forN ?cnt 0 ?body _ = _ =>
    destruct (forN_inv (fun j l => l = firstn j ts) cnt 0 body []) as [l [Heq Hlq]] end.
  - intros j l Hj ->. cbn [Nat.add] in Hj. destruct Hj as [_ Hj].
    assert (Hsp := split_nth (mkTh 0 0 0 0 []) ts j Hj). set (t := nth j ts (mkTh 0 0 0 0 [])) in *.
    assert (Hin : In t ts) by (apply nth_In; exact Hj).
    rewrite Forall_forall in Hr, Hl.
    replace (a ++ concat (map (store_th p) ts) ++ c) with ((a ++ concat (map (store_th p) (firstn j ts))) ++ store_th p t ++ (concat (map (store_th p) (skipn (S j) ts)) ++ c)).
    2: { rewrite Hsp at 3. rewrite map_app, concat_app. cbn [map concat]. rewrite <- !app_assoc. reflexivity. }
    replace (length a + j * (7 + n)) with (length (a ++ concat (map (store_th p) (firstn j ts)))).
    2: { rewrite app_length, store_ths_length; [rewrite firstn_length, Nat.min_l by lia; reflexivity|].
         apply Forall_forall. intros x Hx. apply Hl. rewrite <- (firstn_skipn j ts). apply in_or_app. now left. }
    rewrite load_th_spec by auto. rewrite bind_ok. eexists. split; [reflexivity|].
    rewrite (firstn_S_nth (mkTh 0 0 0 0 []) ts j Hj). reflexivity.
  - reflexivity.
  - rewrite Heq, Hlq. cbn [Nat.add]. now rewrite firstn_all.
Qed.

(** reading back a stored state *)
Lemma load_store_state s a c : shape p s -> in_range s ->
  load_state p (a ++ store_state p s ++ c) (length a) = Ok (s, length a + state_bytes).
Proof.
  intros Hs (R1 & R2 & R3). unfold load_state. rewrite (th_count_ok p Hk), (retain_count_ok p Hk H30), !bind_ok. cbv zeta.
  unfold store_state. rewrite !ull_to_bytes_spec.
  set (b1 := toByte (N.of_nat (st_stackoffset s)) 4). set (b2 := toByte (st_next_leaf s) 4).
  assert (L1 : length b1 = 4) by apply toByte_length. assert (L2 : length b2 = 4) by apply toByte_length.
  pose proof (sh_stack p s Hs) as S1. pose proof (sh_levels p s Hs) as S2. pose proof (sh_auth p s Hs) as S3.
  pose proof (sh_keep p s Hs) as S4. pose proof (sh_th p s Hs) as S5. pose proof (sh_retain p s Hs) as S6.
  pose proof (store_ths_length _ (shape_nodes s Hs)) as S7.
  rewrite <- !app_assoc.
  set (T := concat (map (store_th p) (st_treehash s))) in *.
  rewrite (rd_shift a _ 0) by lia. rewrite rd_head by (symmetry; exact S1). rewrite bind_ok.
  rewrite (rd_shift a _ ((H + 1) * n)) by lia. rewrite (rd_shift (st_stack s) _ 0) by lia. rewrite rd_head by (symmetry; exact L1). rewrite bind_ok.
  unfold b1 at 1. rewrite ull_field by (lia || exact R1). rewrite bind_ok.
  rewrite (rd_shift a _ ((H + 1) * n + 4)) by lia. rewrite (rd_shift (st_stack s) _ 4) by lia. rewrite (rd_shift b1 _ 0) by lia.
  rewrite rd_head by (symmetry; exact S2). rewrite bind_ok.
  rewrite (rd_shift a _ ((H + 1) * n + 4 + (H + 1))) by lia. rewrite (rd_shift (st_stack s) _ (4 + (H + 1))) by lia. rewrite (rd_shift b1 _ (H + 1)) by lia.
  rewrite (rd_shift (st_stacklevels s) _ 0) by lia. rewrite rd_head by (symmetry; exact S3). rewrite bind_ok.
  rewrite (rd_shift a _ ((H + 1) * n + 4 + (H + 1) + H * n)) by lia. rewrite (rd_shift (st_stack s) _ (4 + (H + 1) + H * n)) by lia. rewrite (rd_shift b1 _ (H + 1 + H * n)) by lia.
  rewrite (rd_shift (st_stacklevels s) _ (H * n)) by lia. rewrite (rd_shift (st_auth s) _ 0) by lia.
  rewrite rd_head by (symmetry; exact S4). rewrite bind_ok.
  set (pre := a ++ st_stack s ++ b1 ++ st_stacklevels s ++ st_auth s ++ st_keep s).
  assert (Hpre : length pre = length a + (H + 1) * n + 4 + (H + 1) + H * n + H / 2 * n) by (unfold pre; rewrite !app_length; lia).
  replace (a ++ st_stack s ++ b1 ++ st_stacklevels s ++ st_auth s ++ st_keep s ++ T ++ st_retain s ++ b2 ++ c)
    with (pre ++ T ++ st_retain s ++ b2 ++ c) by (unfold pre; rewrite <- !app_assoc; reflexivity).
  unfold T at 1. rewrite <- S5. rewrite (load_ths_spec (st_treehash s) (st_retain s ++ b2 ++ c) R3 (shape_nodes s Hs) pre) by lia. rewrite bind_ok.
  fold T. rewrite S5 in *. fold th_bytes.
  rewrite (rd_shift pre _ (thc * th_bytes)) by lia. rewrite (rd_shift T _ 0) by lia. rewrite rd_head by (symmetry; exact S6). rewrite bind_ok.
  rewrite (rd_shift pre _ (thc * th_bytes + rcount p * n)) by lia. rewrite (rd_shift T _ (rcount p * n)) by lia. rewrite (rd_shift (st_retain s) _ 0) by lia.
  rewrite rd_head by (symmetry; exact L2). rewrite bind_ok. unfold b2 at 1. rewrite ull_field by (lia || exact R2). rewrite bind_ok.
  rewrite Nat2N.id. unfold state_bytes. f_equal. f_equal; [destruct s; reflexivity|lia].
Qed.

(** any bytes are a stored state *)
Lemma th_of_bytes b : length b = th_bytes -> bytes_ok b -> exists t, store_th p t = b /\ th_range t /\ length (th_node t) = n.
Proof.
  intros Hl Hb. unfold th_bytes in Hl.
  assert (Hf : forall i m, i + m <= length b -> length (firstn m (skipn i b)) = m /\ bytes_ok (firstn m (skipn i b))).
  { intros i m Him. split; [rewrite firstn_length, skipn_length; lia|]. now apply bytes_ok_firstn, bytes_ok_skipn. }
  set (b1 := firstn 1 (skipn 0 b)). set (b2 := firstn 4 (skipn 1 b)). set (b3 := firstn 1 (skipn 5 b)). set (b4 := firstn 1 (skipn 6 b)).
  destruct (Hf 0 1 ltac:(lia)) as [L1 B1]. destruct (Hf 1 4 ltac:(lia)) as [L2 B2]. destruct (Hf 5 1 ltac:(lia)) as [L3 B3]. destruct (Hf 6 1 ltac:(lia)) as [L4 B4].
  fold b1 b2 b3 b4 in L1, L2, L3, L4, B1, B2, B3, B4.
  pose proof (os2ip_lt b1 B1) as V1. pose proof (os2ip_lt b2 B2) as V2. pose proof (os2ip_lt b3 B3) as V3. pose proof (os2ip_lt b4 B4) as V4.
  rewrite L1 in V1. rewrite L2 in V2. rewrite L3 in V3. rewrite L4 in V4.
  change (256 ^ N.of_nat 1)%N with 256%N in *. change (256 ^ N.of_nat 4)%N with (2 ^ 32)%N in *.
  exists (mkTh (N.to_nat (os2ip b1)) (os2ip b2) (N.to_nat (os2ip b3)) (os2ip b4) (skipn 7 b)).
  unfold store_th, th_range. cbn [th_h th_next_idx th_stackusage th_completed th_node]. rewrite !ull_to_bytes_spec, !N2Nat.id.
  split; [|split; [repeat split; lia|rewrite skipn_length; lia]].
  pose proof (toByte_os2ip b1 B1) as Q1. pose proof (toByte_os2ip b2 B2) as Q2. pose proof (toByte_os2ip b3 B3) as Q3. pose proof (toByte_os2ip b4 B4) as Q4.
  rewrite L1 in Q1. rewrite L2 in Q2. rewrite L3 in Q3. rewrite L4 in Q4. rewrite Q1, Q2, Q3, Q4. unfold b1, b2, b3, b4.
  rewrite <- (firstn_skipn 1 b) at 6. f_equal. rewrite <- (firstn_skipn 4 (skipn 1 b)) at 2. rewrite skipn_skipn. f_equal.
  rewrite <- (firstn_skipn 1 (skipn (4 + 1) b)) at 1. rewrite skipn_skipn. cbn [Nat.add]. f_equal.
  rewrite <- (firstn_skipn 1 (skipn 6 b)) at 2. rewrite skipn_skipn. reflexivity.
Qed.
Lemma ths_of_bytes m : forall b, length b = m * th_bytes -> bytes_ok b ->
  exists ts, concat (map (store_th p) ts) = b /\ length ts = m /\ Forall th_range ts /\ Forall (fun t => length (th_node t) = n) ts.
Proof.
  induction m as [|m IH]; intros b Hl Hb.
  - exists []. destruct b; [repeat split; constructor|discriminate].
  - destruct (th_of_bytes (firstn th_bytes b)) as (t & T1 & T2 & T3); [rewrite firstn_length; lia|now apply bytes_ok_firstn|].
    destruct (IH (skipn th_bytes b)) as (ts & S1 & S2 & S3 & S4); [rewrite skipn_length; lia|now apply bytes_ok_skipn|].
    exists (t :: ts). cbn [map concat length]. rewrite T1, S1, S2, firstn_skipn. repeat split; auto.
Qed.
Lemma state_of_bytes b : length b = state_bytes -> bytes_ok b -> exists s, store_state p s = b /\ shape p s /\ in_range s.
Proof.
  intros Hl Hb. unfold state_bytes in Hl.
  assert (Hc : forall m r x, length x = m + r -> bytes_ok x -> exists y z, x = y ++ z /\ length y = m /\ length z = r /\ bytes_ok y /\ bytes_ok z).
  { intros m r x Hx Hbx. exists (firstn m x), (skipn m x). rewrite firstn_skipn, firstn_length, skipn_length.
    split; [reflexivity|]. split; [lia|]. split; [lia|]. split; [now apply bytes_ok_firstn|now apply bytes_ok_skipn]. }
  destruct (Hc _ _ b Hl Hb) as (x1 & r1 & -> & L1 & M1 & B1 & C1).
  destruct (Hc _ _ r1 M1 C1) as (x2 & r2 & -> & L2 & M2 & B2 & C2).
  destruct (Hc _ _ r2 M2 C2) as (x3 & r3 & -> & L3 & M3 & B3 & C3).
  destruct (Hc _ _ r3 M3 C3) as (x4 & r4 & -> & L4 & M4 & B4 & C4).
  destruct (Hc _ _ r4 M4 C4) as (x5 & r5 & -> & L5 & M5 & B5 & C5).
  destruct (Hc _ _ r5 M5 C5) as (x6 & r6 & -> & L6 & M6 & B6 & C6).
  destruct (Hc _ _ r6 M6 C6) as (x7 & x8 & -> & L7 & L8 & B7 & B8).
  destruct (ths_of_bytes thc x6 L6 B6) as (ts & T1 & T2 & T3 & T4).
  pose proof (os2ip_lt x2 B2) as V2. pose proof (os2ip_lt x8 B8) as V8. rewrite L2 in V2. rewrite L8 in V8.
  change (256 ^ N.of_nat 4)%N with (2 ^ 32)%N in *.
  pose proof (toByte_os2ip x2 B2) as Q2. pose proof (toByte_os2ip x8 B8) as Q8. rewrite L2 in Q2. rewrite L8 in Q8.
  exists (mkBds x1 (N.to_nat (os2ip x2)) x3 x4 x5 ts x7 (os2ip x8)).
  split; [unfold store_state; stc; rewrite !ull_to_bytes_spec, N2Nat.id, Q2, Q8, T1; reflexivity|].
  split; [constructor; stc; try assumption|].
  - intros j t Hj. rewrite Forall_forall in T4. apply T4. now apply nth_error_In in Hj.
  - unfold in_range. stc. rewrite N2Nat.id. auto.
Qed.

(** ** the whole secret key *)
Notation ib := (index_bytes p).
Notation wsig := (wots_sig_bytes p).
Hypothesis Hd : 1 <= p_d p.
Definition ser_bytes : nat := nstates p * state_bytes + (p_d p - 1) * wsig.
Definition states_ok (ss : list bds_state) : Prop := length ss = nstates p /\ Forall (shape p) ss /\ Forall in_range ss.

Lemma store_states_length ss : Forall (shape p) ss -> length (concat (map (store_state p) ss)) = length ss * state_bytes.
Proof.
  induction 1 as [|s ss Hs _ IH]; [reflexivity|]. cbn [map concat length]. rewrite app_length, IH, store_state_length by exact Hs. lia.
Qed.
Lemma load_states ss c : Forall (shape p) ss -> Forall in_range ss -> forall a,
  forN (length ss) 0 (fun _ '(l, o) => let* (s, o) := load_state p (a ++ concat (map (store_state p) ss) ++ c) o in Ok (l ++ [s], o)) ([], length a)
  = Ok (ss, length a + length ss * state_bytes).
Proof.
  intros Hs Hr a.
  match goal with |- forN ?cnt 0 ?body _ = _ =>
    destruct (forN_inv (fun j '(l, o) => l = firstn j ss /\ o = length a + j * state_bytes) cnt 0 body ([], length a)) as [[l o] [Heq [Hlq Ho]]] end.
  - intros j [l o] Hj [-> ->]. cbn [Nat.add] in Hj. destruct Hj as [_ Hj]. cbv beta iota.
    set (dflt := mkBds [] 0 [] [] [] [] [] 0). assert (Hsp := split_nth dflt ss j Hj). set (s := nth j ss dflt) in *.
    assert (Hin : In s ss) by (apply nth_In; exact Hj). rewrite Forall_forall in Hr, Hs.
    replace (a ++ concat (map (store_state p) ss) ++ c) with ((a ++ concat (map (store_state p) (firstn j ss))) ++ store_state p s ++ (concat (map (store_state p) (skipn (S j) ss)) ++ c)).
    2: { rewrite Hsp at 3. rewrite map_app, concat_app. cbn [map concat]. rewrite <- !app_assoc. reflexivity. }
    assert (Hlen : length a + j * state_bytes = length (a ++ concat (map (store_state p) (firstn j ss)))).
    { rewrite app_length, store_states_length; [rewrite firstn_length, Nat.min_l by lia; reflexivity|].
      apply Forall_forall. intros x Hx. apply Hs. rewrite <- (firstn_skipn j ss). apply in_or_app. now left. }
    rewrite Hlen. rewrite load_store_state by auto. rewrite bind_ok. eexists. split; [reflexivity|].
    split; [rewrite (firstn_S_nth dflt ss j Hj); reflexivity|]. rewrite <- Hlen. lia.
  - split; [reflexivity|lia].
  - rewrite Heq, Hlq, Ho. cbn [Nat.add]. now rewrite firstn_all.
Qed.

(** reading what a serialisation has written *)
Lemma deserialize_spec pre ss ws post : length pre = ib + 4 * n -> states_ok ss -> length ws = (p_d p - 1) * wsig ->
  xmssmt_deserialize_state p (pre ++ concat (map (store_state p) ss) ++ ws ++ post) = Ok (ss, ws).
Proof.
  intros Hpre (Hl & Hs & Hr) Hw. unfold xmssmt_deserialize_state. destruct (Nat.eqb_spec (p_d p) 0) as [Hz|_]; [lia|].
  rewrite <- Hl, <- Hpre. rewrite (load_states ss (ws ++ post) Hs Hr pre). rewrite bind_ok.
  rewrite (rd_shift pre _ (length ss * state_bytes)) by lia.
  rewrite (rd_shift _ _ 0) by (rewrite (store_states_length ss Hs); lia). rewrite rd_head by (symmetry; exact Hw). reflexivity.
Qed.
Lemma serialize_spec pre old post ss ws : length pre = ib + 4 * n -> length old = ser_bytes -> states_ok ss -> length ws = (p_d p - 1) * wsig ->
  xmssmt_serialize_state p (pre ++ old ++ post) ss ws = Ok (pre ++ concat (map (store_state p) ss) ++ ws ++ post).
Proof.
  intros Hpre Hold (Hl & Hs & Hr) Hw. unfold xmssmt_serialize_state.
  rewrite wr_app; [now rewrite <- app_assoc|auto|]. rewrite app_length, store_states_length, Hl, Hw, Hold by exact Hs. reflexivity.
Qed.
(** any bytes of the right length are a serialisation *)
Lemma ser_of_bytes b : length b = ser_bytes -> bytes_ok b ->
  exists ss ws, b = concat (map (store_state p) ss) ++ ws /\ states_ok ss /\ length ws = (p_d p - 1) * wsig.
Proof.
  unfold ser_bytes, states_ok. generalize (nstates p) as m. intros m. revert b. induction m as [|m IH]; intros b Hl Hb.
  - exists [], b. repeat split; auto.
  - rewrite Nat.mul_succ_l in Hl. assert (Hge : state_bytes <= length b) by (rewrite Hl, <- Nat.add_assoc; apply Nat.le_trans with (m * state_bytes + state_bytes); [apply Nat.le_add_l|rewrite Nat.add_assoc; apply Nat.le_add_r]).
    destruct (state_of_bytes (firstn state_bytes b)) as (s & T1 & T2 & T3); [rewrite firstn_length; now apply Nat.min_l|now apply bytes_ok_firstn|].
    destruct (IH (skipn state_bytes b)) as (ss & ws & S1 & (S2 & S3 & S4) & S5); [rewrite skipn_length, Hl; set (z := m * state_bytes); set (y := (p_d p - 1) * wsig); lia|now apply bytes_ok_skipn|].
    exists (s :: ss), ws. cbn [map concat length]. rewrite T1, <- app_assoc, <- S1, firstn_skipn. repeat split; auto.
Qed.
End Ser.
