(** The tools with either core: crash points, histories of crashes. *)
From Coq Require Import String.
From Verif Require Import Base Lib ModelUtils ModelParams ModelCore ModelCoreFast ModelCommons ModelXmss ModelUi
  SpecRfc SpecParams SpecApi SpecComp SpecFast SpecUi ProofUtils ProofHash ProofCore ProofParams ProofApi ProofHistory ProofMain ProofUi ProofUi2 ProofFast3 ProofFast6 ProofAny.

(** a torn big-endian update of a counter that grows never goes back *)
Lemma torn_ge ib i j k : (i <= j)%N -> (j < 256 ^ N.of_nat ib)%N -> k <= ib ->
  (i <= os2ip (firstn k (toByte j ib) ++ skipn k (toByte i ib)))%N.
Proof.
  intros Hij Hj Hk. set (b := ib - k). assert (Hs : ib = k + b) by (unfold b; lia).
  rewrite Hs, !toByte_split. rewrite (firstn_app_len (toByte _ k)), (skipn_app_len (toByte _ k)) by (now rewrite toByte_length).
  rewrite os2ip_app, !os2ip_toByte, toByte_length.
  assert (HB : (256 ^ N.of_nat b <> 0)%N) by (apply N.pow_nonzero; discriminate).
  rewrite (N.mod_small (j / _)) by (apply N.div_lt_upper_bound; [exact HB|]; rewrite <- N.pow_add_r; replace (N.of_nat b + N.of_nat k)%N with (N.of_nat ib) by lia; exact Hj).
  rewrite (N.div_mod i (256 ^ N.of_nat b)) at 1 by exact HB.
  pose proof (N.div_le_mono i j _ HB Hij). rewrite (N.mul_comm (256 ^ _)). apply N.add_le_mono_r, N.mul_le_mono_r. assumption.
Qed.

(** a key whose bytes after the OID have been overwritten up to position [k] *)
Definition torn_key (k : nat) (sk sk' : bytes) : bytes := firstn (4 + k) sk' ++ skipn (4 + k) sk.
Lemma torn_key_index {E : Env} (r : row) size (sk sk' : bytes) k : let ib := idx_size r in ib <= size ->
  List.length sk = 4 + size /\ bytes_ok (firstn ib (skipn 4 sk)) -> List.length sk' = 4 + size /\ bytes_ok (firstn ib (skipn 4 sk')) -> k <= size -> (sk_index r sk <= sk_index r sk')%N -> (sk_index r sk <= sk_index r (torn_key k sk sk'))%N.
Proof.
  intros ib Hib (S1 & S3) (T1 & T3) Hk Hle. unfold sk_index in *. fold ib in Hle |- *. set (I := firstn ib (skipn 4 sk)) in *. set (I' := firstn ib (skipn 4 sk')) in *.
  assert (LI : List.length I = ib) by (unfold I; rewrite firstn_length, skipn_length; lia).
  assert (LI' : List.length I' = ib) by (unfold I'; rewrite firstn_length, skipn_length; lia).
  destruct (Nat.le_gt_cases ib k) as [Hc|Hc].
  - assert (He : firstn ib (skipn 4 (torn_key k sk sk')) = I').
    { unfold torn_key, I'. rewrite skipn_app, firstn_app, skipn_length, firstn_length. replace (ib - _) with 0 by lia. rewrite firstn_O, app_nil_r.
      rewrite skipn_firstn_comm, firstn_firstn. f_equal. lia. }
    rewrite He. exact Hle.
  - assert (He : firstn ib (skipn 4 (torn_key k sk sk')) = firstn k I' ++ skipn k I).
    { unfold torn_key, I, I'. rewrite skipn_app, skipn_firstn_comm, firstn_length. replace (4 + k - 4) with k by lia.
      replace (4 - Nat.min (4 + k) (List.length sk')) with 0 by lia. change (skipn 0 (skipn (4 + k) sk)) with (skipn (4 + k) sk).
      assert (Lk : List.length (firstn k (skipn 4 sk')) = k) by (rewrite firstn_length, skipn_length; lia).
      rewrite firstn_app, Lk, !firstn_firstn. replace (Nat.min ib k) with k by lia. replace (Nat.min k ib) with k by lia. f_equal.
      rewrite skipn_firstn_comm. f_equal. rewrite skipn_skipn. f_equal. lia. }
    rewrite He. rewrite <- (toByte_os2ip I') by exact T3. rewrite <- (toByte_os2ip I) at 2 by exact S3. rewrite LI, LI'.
    apply torn_ge; [exact Hle| |lia]. rewrite <- LI'. now apply os2ip_lt.
Qed.

Lemma os2ip_ff k : os2ip (repeat 255%N k) = (256 ^ N.of_nat (List.length (repeat 255%N k)) - 1)%N.
Proof.
  rewrite repeat_length. induction k as [|k IH]; [reflexivity|].
  change (repeat 255%N (S k)) with ([255%N] ++ repeat 255%N k). rewrite os2ip_app, IH, repeat_length. change (os2ip [255%N]) with 255%N.
  rewrite Nat2N.inj_succ, N.pow_succ_r'. pose proof (pow256_pos (N.of_nat k)). lia.
Qed.
Section Core.
Context {E : Env}.
Variables (mt : bool) (c : core) (rp r : row) (size : nat) (skb : N) (pk rest : bytes).
Hypothesis Hrp : In rp (rows mt).
Hypothesis Hr : In r (rows mt).
Hypothesis Hacc : forall q, In q (rows mt) -> exists b, forall p0, ProofParams.parse_oid mt (c_sk_bytes c) p0 (r_oid q) = Ok (Some (row_params q b)).
Hypothesis Hskb : forall p0, ProofParams.parse_oid mt (c_sk_bytes c) p0 (r_oid r) = Ok (Some (row_params r skb)).
Hypothesis Hsize : ModelParams.sk_bytes (row_params r skb) = size.
Hypothesis Hsig : ModelParams.sig_bytes (row_params r skb) = sig_size r.
Hypothesis Hpk : key_of rp (pk_size rp) pk.
Notation ib := (idx_size r).
Notation top := (2 ^ N.of_nat (r_h r))%N.

Definition tool_call (m : bytes) (sk : bytes) : res sign_out := sign mt c sk (uninit (sig_size r + List.length m)) (N.to_nat (junk 0)) m.

Lemma tool_eq sk m : List.length sk = 4 + size -> firstn 4 sk = toByte (r_oid r) 4 ->
  ui_sign mt c true (Some (pk ++ sk ++ rest)) (Some m) =
  let* o := tool_call m sk in
  let* d := rd (so_sk o) 4 size in
  let* sm := rd (so_sm o) 0 (so_smlen o) in
  Ok (mkUi 0 [KeyWrite (List.length pk + 4) d; OutWrite sm; KeyClose; ExitProc]).
Proof.
  intros S1 S2. destruct Hpk as [P1 [P2 P3]]. unfold ui_sign. cbn [negb]. change XMSS_OID_LEN with 4.
  assert (Hl : List.length (pk ++ sk ++ rest) = 4 + pk_size rp + (4 + size) + List.length rest) by (rewrite !app_length; lia).
  set (kf := pk ++ sk ++ rest) in *.
  assert (F1 : firstn 4 kf = firstn 4 pk). { unfold kf. rewrite firstn_app, P1. replace (4 - (4 + pk_size rp)) with 0 by lia. cbn [firstn]. now rewrite app_nil_r. }
  assert (F2 : skipn (4 + pk_size rp) kf = sk ++ rest). { unfold kf. rewrite <- P1. now rewrite skipn_app_len. }
  rewrite fread_ok by lia. cbn [skipn]. rewrite F1.
  destruct (oid_read (firstn 4 pk)) as [H1 H2]; [rewrite firstn_length; lia|now apply bytes_ok_firstn|]. rewrite H1. cbn [bind]. rewrite H2.
  rewrite (oid_row mt rp) by assumption. change (ui_parse_oid mt) with (ProofParams.parse_oid mt). rewrite fpos_ok by lia. change (0 + 4) with 4.
  destruct (Hacc rp Hrp) as [b Hb]. rewrite Hb. cbn [bind]. rewrite row_pk_size.
  rewrite fread_ok by lia. rewrite F2.
  assert (F3 : firstn 4 (sk ++ rest) = firstn 4 sk). { rewrite firstn_app, S1. replace (4 - (4 + size)) with 0 by lia. cbn [firstn]. now rewrite app_nil_r. }
  rewrite F3. destruct (oid_read (firstn 4 sk)) as [H3 H4]; [rewrite firstn_length; lia|rewrite S2; apply toByte_ok|]. rewrite H3. cbn [bind]. rewrite H4.
  rewrite (oid_row mt r) by assumption. rewrite Hskb. cbn [bind].
  rewrite fpos_ok by lia. replace (4 + pk_size rp + 4 - 4) with (4 + pk_size rp) by lia.
  rewrite Hsize. rewrite Hsig. rewrite fread_ok by lia. rewrite F2, <- S1, firstn_app_len by reflexivity.
  change (ui_sign_fn mt c) with (sign mt c). unfold tool_call. destruct (sign mt c sk _ _ m) as [o| |]; [|reflexivity|reflexivity]. cbn [bind].
  rewrite fpos_ok by lia. destruct (Nat.leb_spec size (4 + pk_size rp + List.length sk)); [|lia].
  replace (4 + pk_size rp + List.length sk - size) with (List.length pk + 4) by lia. reflexivity.
Qed.


Lemma torn_key_kf sk sk' k : List.length sk = 4 + size -> List.length sk' = List.length sk -> firstn 4 sk' = firstn 4 sk -> k <= size ->
  torn (pk ++ sk ++ rest) (List.length pk + 4) (skipn 4 sk') k = pk ++ torn_key k sk sk' ++ rest.
Proof.
  intros Hs Hl Ho Hk. unfold torn, torn_key.
  rewrite firstn_app_2, <- !app_assoc. f_equal. rewrite firstn_app. replace (4 - List.length sk) with 0 by lia. rewrite firstn_O, app_nil_r.
  rewrite <- Ho, (app_assoc (firstn 4 sk')). f_equal.
  - rewrite <- (firstn_skipn 4 sk') at 3. rewrite firstn_app, firstn_firstn, firstn_length. replace (Nat.min (4 + k) 4) with 4 by lia.
    replace (4 + k - Nat.min 4 (List.length sk')) with k by lia. reflexivity.
  - rewrite skipn_app. replace (List.length pk + 4 + k - List.length pk) with (4 + k) by lia. rewrite (skipn_all2 pk) by lia. cbn [app].
    rewrite skipn_app. replace (4 + k - List.length sk) with 0 by lia. reflexivity.
Qed.
Lemma torn_key_all sk sk' : List.length sk = 4 + size -> List.length sk' = List.length sk -> torn_key size sk sk' = sk'.
Proof. intros Hs Hl. unfold torn_key. rewrite firstn_all2, skipn_all2 by lia. apply app_nil_r. Qed.

(** the states in which a run can stop *)
Lemma tool_stops sk m u s o : List.length sk = 4 + size -> firstn 4 sk = toByte (r_oid r) 4 ->
  ui_sign mt c true (Some (pk ++ sk ++ rest)) (Some m) = Ok u -> crash_state (pk ++ sk ++ rest) u s ->
  tool_call m sk = Ok o -> List.length (so_sk o) = List.length sk -> firstn 4 (so_sk o) = firstn 4 sk ->
  exists k q, k <= size /\ d_key s = pk ++ torn_key k sk (so_sk o) ++ rest /\ d_out s = firstn q (signed_message o) /\
    (~ In KeyClose (d_todo s) -> k = size).
Proof.
  intros S1 S2 Hu Hs Ho Hl Hoid. rewrite (tool_eq sk m S1 S2), Ho, bind_ok in Hu. apply bind_inv in Hu. destruct Hu as (d & Hd & Hu).
  apply bind_inv in Hu. destruct Hu as (sm & Hsm & Hu). injection Hu as <-.
  assert (Ed : d = skipn 4 (so_sk o)). { rewrite rd_ok in Hd by lia. injection Hd as <-. apply firstn_all2. rewrite skipn_length. lia. }
  assert (Esm : sm = signed_message o). { unfold rd in Hsm. destruct (Nat.leb_spec (0 + so_smlen o) (List.length (so_sm o))) as [Hc|Hc]; [|discriminate Hsm]. injection Hsm as <-. reflexivity. }
  subst d sm. assert (Ld : List.length (skipn 4 (so_sk o)) = size) by (rewrite skipn_length; lia).
  assert (Hb : List.length pk + 4 + List.length (skipn 4 (so_sk o)) <= List.length (pk ++ sk ++ rest)) by (rewrite !app_length; lia).
  destruct (crash_inv_reach _ _ _ _ _ Hb Hs) as (k & q & Hk & Hkey & Hout & Hst). rewrite Ld in Hk.
  exists k, q. split; [exact Hk|]. rewrite torn_key_kf in Hkey by assumption. split; [exact Hkey|]. split; [exact Hout|].
  intros Hnc. destruct Hst as [[Ht _]|[[Ht _]|[[Ht _]|[[_ [-> _]]|[_ [-> _]]]]]]; try (exfalso; apply Hnc; rewrite Ht; cbn; tauto); exact Ld.
Qed.

(** *** histories *)
Variable K : bytes -> Prop.
Hypothesis K_key : forall sk, K sk -> List.length sk = 4 + size /\ firstn 4 sk = toByte (r_oid r) 4 /\ bytes_ok (firstn ib (skipn 4 sk)).
Hypothesis K_torn : forall sk sk' k, K sk -> K sk' -> k <= size -> (sk_index r sk <= sk_index r sk')%N -> K (torn_key k sk sk').
Hypothesis Hib : ib <= size.
Hypothesis K_step : forall sk m o, K sk -> tool_call m sk = Ok o -> K (so_sk o) /\ (sk_index r sk <= sk_index r (so_sk o))%N /\
  ((sk_index r sk < top)%N -> (sk_index r sk < sk_index r (so_sk o))%N) /\
  ((sk_index r sk + 1 < top)%N -> sm_index r (signed_message o) = sk_index r sk).

Lemma run_step sk m u s : K sk -> ui_sign mt c true (Some (pk ++ sk ++ rest)) (Some m) = Ok u -> crash_state (pk ++ sk ++ rest) u s ->
  exists sk1, d_key s = pk ++ sk1 ++ rest /\ K sk1 /\ (sk_index r sk <= sk_index r sk1)%N /\
    (~ In KeyClose (d_todo s) -> (sk_index r sk < top)%N -> (sk_index r sk < sk_index r sk1)%N) /\
    ((sk_index r sk + 1 < top)%N -> ib <= List.length (d_out s) -> sm_index r (d_out s) = sk_index r sk) /\
    exists o q, tool_call m sk = Ok o /\ d_out s = firstn q (signed_message o).
Proof.
  intros HK Hu Hs. destruct (K_key sk HK) as (S1 & S2 & S3).
  assert (Ho : exists o, tool_call m sk = Ok o). { rewrite (tool_eq sk m S1 S2) in Hu. apply bind_inv in Hu. destruct Hu as (o & Ho & _). eauto. }
  destruct Ho as [o Ho]. destruct (K_step sk m o HK Ho) as (HK' & A1 & A2 & A3). destruct (K_key _ HK') as (T1 & T2 & T3).
  destruct (tool_stops sk m u s o S1 S2 Hu Hs Ho) as (k & q & Hk & Hkey & Hout & Hcl); [congruence|congruence|].
  exists (torn_key k sk (so_sk o)). split; [exact Hkey|]. split; [now apply K_torn|].  split; [apply torn_key_index with (size := size); tauto|].
  split; [|split].
  - intros Hnc Hi. rewrite (Hcl Hnc), torn_key_all by congruence. now apply A2.
  - intros Hi Hl. rewrite <- (A3 Hi). unfold sm_index. rewrite Hout, firstn_firstn. f_equal. f_equal.
    rewrite Hout, firstn_length in Hl. lia.
  - exists o, q. auto.
Qed.

Notation stored kf := (sk_index r (skipn (List.length pk) kf)).
Lemma stored_eq sk : K sk -> stored (pk ++ sk ++ rest) = sk_index r sk.
Proof.
  intros HK. destruct (K_key sk HK) as (S1 & _). rewrite skipn_app_len by reflexivity. unfold sk_index. f_equal.
  rewrite skipn_app, firstn_app, skipn_length. replace (ib - (List.length sk - 4)) with 0 by lia. now rewrite firstn_O, app_nil_r.
Qed.

Lemma runs_each kf l : runs mt c kf l -> forall sk, kf = pk ++ sk ++ rest -> K sk ->
  forall j kfj mj sj, nth_error l j = Some (kfj, mj, sj) ->
    (exists skj o q, kfj = pk ++ skj ++ rest /\ K skj /\ tool_call mj skj = Ok o /\ d_out sj = firstn q (signed_message o)) /\ (stored kf <= stored kfj)%N /\
    ((stored kfj + 1 < top)%N -> ib <= List.length (d_out sj) -> sm_index r (d_out sj) = stored kfj).
Proof.
  intros Hruns. induction Hruns as [kf|kf m u s l Hu Hs Hrest IH]; intros sk -> HK j kfj mj sj Hj; [now destruct j|].
  destruct (run_step sk m u s HK Hu Hs) as (sk1 & D1 & D2 & D3 & D4 & D5 & o & q & D6 & D7). destruct j as [|j]; cbn [nth_error] in Hj.
  - injection Hj as <- <- <-. rewrite stored_eq by exact HK. split; [exists sk, o, q; auto|]. split; [lia|exact D5].
  - destruct (IH sk1 D1 D2 j kfj mj sj Hj) as (I1 & I2 & I3). split; [exact I1|]. split; [|exact I3].
    rewrite stored_eq by exact HK. rewrite D1, stored_eq in I2 by exact D2. lia.
Qed.
Lemma runs_order kf l : runs mt c kf l -> forall sk, kf = pk ++ sk ++ rest -> K sk ->
  forall i j kfi mi si kfj mj sj, i < j -> nth_error l i = Some (kfi, mi, si) -> nth_error l j = Some (kfj, mj, sj) ->
    (stored kfi <= stored kfj)%N /\ (~ In KeyClose (d_todo si) -> (stored kfi < top)%N -> (stored kfi < stored kfj)%N).
Proof.
  intros Hruns. induction Hruns as [kf|kf m u s l Hu Hs Hrest IH]; intros sk -> HK i j kfi mi si kfj mj sj Hij Hi Hj; [now destruct j|].
  destruct (run_step sk m u s HK Hu Hs) as (sk1 & D1 & D2 & D3 & D4 & D5 & o & q & D6 & D7). destruct j as [|j]; [lia|]. cbn [nth_error] in Hj. destruct i as [|i]; cbn [nth_error] in Hi.
  - injection Hi as <- <- <-. destruct (runs_each _ _ Hrest sk1 D1 D2 j kfj mj sj Hj) as (_ & I2 & _).
    rewrite D1, stored_eq in I2 by exact D2. rewrite stored_eq by exact HK. split; [lia|]. intros H1 H2. specialize (D4 H1 H2). lia.
  - apply (IH sk1 D1 D2 i j kfi mi si kfj mj sj); [lia|assumption|assumption].
Qed.
End Core.

(** *** Both cores *)
Section Cores.
Context {E : Env}.
Hypothesis HE : env_ok E.
Variables (mt : bool) (r : row).
Hypothesis Hr : In r (rows mt).
Hypothesis Hh : r_h r < 8 * idx_size r.
Notation ib := (idx_size r).
Notation top := (2 ^ N.of_nat (r_h r))%N.

Lemma top_lt : (top < 256 ^ N.of_nat ib)%N.
Proof. rewrite pow256_pow2. apply N.pow_lt_mono_r; lia. Qed.

(** what the length, the OID and the type of the index bytes of a key are *)
Definition bkey (size : nat) (full : bool) (sk : bytes) : Prop :=
  List.length sk = 4 + size /\ firstn 4 sk = toByte (r_oid r) 4 /\ bytes_ok (firstn ib (skipn 4 sk)) /\ (full = true -> bytes_ok sk).
Lemma bkey_torn size full sk sk' k : bkey size full sk -> bkey size full sk' -> ib <= size -> k <= size -> bkey size full (torn_key k sk sk').
Proof.
  intros (S1 & S2 & S3 & S4) (T1 & T2 & T3 & T4) Hi Hk. unfold torn_key. split; [rewrite app_length, firstn_length, skipn_length; lia|]. split.
  { rewrite firstn_app, firstn_firstn, firstn_length. replace (4 - Nat.min (4 + k) (List.length sk')) with 0 by lia. rewrite firstn_O, app_nil_r. replace (Nat.min 4 (4 + k)) with 4 by lia. exact T2. }
  split.
  - rewrite skipn_app, firstn_length. replace (4 - Nat.min (4 + k) (List.length sk')) with 0 by lia. change (skipn 0 (skipn (4 + k) sk)) with (skipn (4 + k) sk).
    rewrite skipn_firstn_comm. replace (4 + k - 4) with k by lia. rewrite firstn_app, firstn_length, skipn_length, firstn_firstn. apply Forall_app. split.
    + destruct (Nat.le_gt_cases k ib); [|rewrite Nat.min_l by lia; exact T3]. rewrite Nat.min_r by lia. rewrite <- (Nat.min_l k ib) by lia. rewrite <- firstn_firstn. now apply bytes_ok_firstn.
    + replace (Nat.min k (List.length sk' - 4)) with k by lia.
      destruct (Nat.le_gt_cases k ib) as [Hc|Hc]; [|replace (ib - k) with 0 by lia; constructor].
      rewrite (Nat.add_comm 4 k), <- skipn_skipn. rewrite firstn_skipn_comm. apply bytes_ok_skipn. replace (k + (ib - k)) with ib by lia. exact S3.
  - intros Hfull. apply Forall_app. split; [apply bytes_ok_firstn; auto|apply bytes_ok_skipn; auto].
Qed.

(** the same fields as long as the key can be used *)
Definition K (size : nat) (full : bool) (F : nat -> bytes) (sk : bytes) : Prop :=
  bkey size full sk /\ ((sk_index r sk < top)%N -> forall j, j < 4 -> sk_field r j sk = F j).

Lemma slice_len {A} o k (l : list A) : o + k <= List.length l -> List.length (firstn k (skipn o l)) = k.
Proof. intros. rewrite firstn_length, skipn_length. lia. Qed.
Lemma field_torn size full sk sk' k j x : bkey size full sk -> bkey size full sk' -> j < 4 -> sk_size r <= size -> k <= size ->
  sk_field r j sk = x -> sk_field r j sk' = x -> sk_field r j (torn_key k sk sk') = x.
Proof.
  intros (S1 & _) (T1 & _) Hj Hs Hk X1 X2. rewrite <- X1 in X2 |- *. clear X1 x. unfold sk_field, sk_size in *. set (o := 4 + ib + j * r_n r) in *.
  assert (Ho : o + r_n r <= 4 + size) by (unfold o; nia). unfold torn_key. set (q := 4 + k) in *.
  assert (Lq : List.length (firstn q sk') = q) by (rewrite firstn_length; lia).
  destruct (Nat.le_gt_cases q o) as [H1|H1].
  - rewrite skipn_app, Lq, (skipn_all2 (firstn q sk')) by lia. rewrite skipn_skipn. cbn [app]. do 2 f_equal. lia.
  - rewrite skipn_app, Lq. replace (o - q) with 0 by lia. change (skipn 0 (skipn q sk)) with (skipn q sk).
    rewrite skipn_firstn_comm, firstn_app, firstn_firstn, firstn_length, skipn_length.
    replace (Nat.min (q - o) (List.length sk' - o)) with (q - o) by lia.
    replace (firstn (Nat.min (r_n r) (q - o)) (skipn o sk')) with (firstn (q - o) (firstn (r_n r) (skipn o sk'))) by (rewrite firstn_firstn; f_equal; lia).
    rewrite X2. transitivity (firstn (q - o) (firstn (r_n r) (skipn o sk)) ++ skipn (q - o) (firstn (r_n r) (skipn o sk))); [|apply firstn_skipn]. f_equal.
    rewrite skipn_firstn_comm, skipn_skipn. do 2 f_equal. lia.
Qed.

Lemma K_torn' size full F sk sk' k : sk_size r <= size -> K size full F sk -> K size full F sk' -> k <= size -> (sk_index r sk <= sk_index r sk')%N -> K size full F (torn_key k sk sk').
Proof.
  intros Hs [B1 F1] [B2 F2] Hk Hle.
  assert (Hib : ib <= size) by (unfold sk_size in Hs; lia).
  split; [now apply bkey_torn|]. intros Ht j Hj.
  assert (Hge : (sk_index r sk <= sk_index r (torn_key k sk sk'))%N).
  { apply torn_key_index with (size := size); try assumption; destruct B1 as (? & ? & ? & _), B2 as (? & ? & ? & _); auto. }
  destruct (Nat.le_gt_cases k ib) as [Hc|Hc].
  - rewrite <- (F1 ltac:(lia) j Hj). unfold sk_field, torn_key. destruct B1 as (S1 & _), B2 as (T1 & _). f_equal.
    assert (Lq : List.length (firstn (4 + k) sk') = 4 + k) by (rewrite firstn_length; lia).
    rewrite skipn_app, Lq, (skipn_all2 (firstn (4 + k) sk')) by lia. rewrite skipn_skipn. cbn [app]. f_equal. nia.
  - assert (He : sk_index r (torn_key k sk sk') = sk_index r sk').
    { unfold sk_index, torn_key. f_equal. destruct B1 as (S1 & _), B2 as (T1 & _). rewrite skipn_app, firstn_app, skipn_length, firstn_length. replace (ib - _) with 0 by lia. rewrite firstn_O, app_nil_r.
      rewrite skipn_firstn_comm, firstn_firstn. f_equal. lia. }
    rewrite He in Ht. apply (field_torn size full); try assumption; [apply F1; [lia|assumption]|apply F2; assumption].
Qed.

Definition good_step (c : core) (B : bytes -> Prop) : Prop := forall sk m o, B sk -> tool_call mt c r m sk = Ok o ->
  B (so_sk o) /\ (sk_index r sk <= sk_index r (so_sk o))%N /\
  ((sk_index r sk < top)%N -> (sk_index r sk < sk_index r (so_sk o))%N) /\
  ((sk_index r sk + 1 < top)%N -> sm_index r (signed_message o) = sk_index r sk /\ forall j, j < 4 -> sk_field r j (so_sk o) = sk_field r j sk).
Lemma K_step' c size full F : good_step c (bkey size full) -> forall sk m o, K size full F sk -> tool_call mt c r m sk = Ok o ->
  K size full F (so_sk o) /\ (sk_index r sk <= sk_index r (so_sk o))%N /\
  ((sk_index r sk < top)%N -> (sk_index r sk < sk_index r (so_sk o))%N) /\
  ((sk_index r sk + 1 < top)%N -> sm_index r (signed_message o) = sk_index r sk).
Proof.
  intros Hg sk m o [B1 F1] Ho. destruct (Hg sk m o B1 Ho) as (G1 & G2 & G3 & G4). split; [split; [exact G1|]|].
  - intros Hi j Hj. rewrite (proj2 (G4 ltac:(lia)) j Hj). apply F1; [lia|exact Hj].
  - split; [exact G2|]. split; [exact G3|]. intros Hi. apply (G4 Hi).
Qed.

Lemma fast_good : good_step fast_core (bkey (fast_size r) false).
Proof.
  intros sk m o (S1 & S2 & S3 & _) Ho. set (x := mkCall m (uninit (sig_size r + List.length m)) (N.to_nat (junk 0))).
  destruct (any_step mt r Hr sk x o (conj S1 (conj S2 S3)) Ho) as ((L1 & L2 & L3) & HS). pose proof top_lt as Htl.
  split; [repeat split; try assumption; discriminate|].
  destruct HS as [(A1 & A2 & A3)|(A1 & A2 & A3 & A4 & A5)].
  - assert (Hlt : (sk_index r sk < 256 ^ N.of_nat ib)%N).
    { unfold sk_index. eapply N.lt_le_trans; [apply os2ip_lt; exact S3|]. apply N.pow_le_mono_r; [discriminate|]. pose proof (firstn_le_length ib (skipn 4 sk)). lia. }
    rewrite A3. split; [lia|]. split; intros Hi; exfalso; lia.
  - rewrite N.mod_small in A3 by lia. rewrite A3. split; [lia|]. split; [lia|]. intros Hi. split; [|exact (A4 Hi)].
    destruct A2 as (_ & Q2 & Q3 & Q4 & _). rewrite <- Q4. unfold sm_index, signed_message. rewrite firstn_firstn, Q2. f_equal. f_equal.
    assert (ib <= sig_size r) by (unfold sig_size, sp_sig_bytes, idx_size; lia). lia.
Qed.

Lemma ref_good : good_step ref_core (bkey (sk_size r) true).
Proof.
  intros sk m o (S1 & S2 & S3 & S4) Ho. assert (Hk : key_of r (sk_size r) sk) by (split; [exact S1|split; [exact S2|now apply S4]]). pose proof top_lt as Htl.
  destruct (sign_safe HE mt r sk (uninit (sig_size r + List.length m)) (N.to_nat (junk 0)) m Hr Hk) as (o' & Ho' & _ & Hk' & _); [rewrite uninit_length; lia|].
  unfold tool_call in Ho. rewrite Ho in Ho'. injection Ho' as <-.
  split. { destruct Hk' as (K1 & K2 & K3). repeat split; auto. now apply bytes_ok_firstn, bytes_ok_skipn. }
  set (a := sk_field r 0 sk) in *. set (b := sk_field r 1 sk) in *. set (c := sk_field r 2 sk) in *. set (d := sk_field r 3 sk) in *.
  assert (Hf : fields r a b c d).
  { split; [repeat split; apply sk_fields_length; (exact Hk || lia)|]. repeat split; apply bytes_ok_firstn, bytes_ok_skipn, Hk. }
  assert (Hlt : (sk_index r sk < 256 ^ N.of_nat ib)%N).
  { unfold sk_index. eapply N.lt_le_trans; [apply os2ip_lt; exact S3|]. apply N.pow_le_mono_r; [discriminate|]. pose proof (firstn_le_length ib (skipn 4 sk)). lia. }
  assert (Hm : sig_size r + List.length m <= List.length (uninit (sig_size r + List.length m))) by (rewrite uninit_length; lia).
  destruct (N.lt_trichotomy (sk_index r sk + 1) top) as [Hi|[Hi|Hi]].
  - rewrite (sign_row HE mt r Hr sk Hk _ _ m Hi Hm) in Ho. injection Ho as <-. cbn [so_sk].
    destruct (fsk_parts r (sk_index r sk + 1) a b c d [] Hf) as (_ & _ & Q0 & Q1 & Q2 & Q3 & Q4). rewrite app_nil_r in Q0, Q1, Q2, Q3, Q4. fold a b c d.
    rewrite Q0, N.mod_small by lia. split; [lia|]. split; [lia|]. intros _. split.
    + unfold sm_index, signed_message. cbn [so_sm so_smlen]. rewrite firstn_firstn.
      assert (Hs : ib <= sig_size r) by (unfold sig_size, sp_sig_bytes, idx_size; lia). rewrite Nat.min_l by lia.
      unfold mt_sign. rewrite <- !app_assoc. change (sp_ib (row_sp r)) with ib. rewrite firstn_app_len by (now rewrite toByte_length). rewrite os2ip_toByte. apply N.mod_small. exact Hlt.
    + intros j Hj. destruct j as [|[|[|[|j]]]]; [exact Q1|exact Q2|exact Q3|exact Q4|lia].
  - pose proof (sign_last_row HE mt r Hr sk Hk _ (N.to_nat (junk 0)) m Hi Hm) as Hl. cbv zeta in Hl. rewrite Hl in Ho. injection Ho as <-. cbn [so_sk].
    set (z := repeat 0%N (r_n r)).
    assert (Hz : fields r z z z z). { unfold z. split; [rewrite !repeat_length; auto|]. repeat split; apply Forall_forall; intros y Hy; apply repeat_spec in Hy; subst y; reflexivity. }
    destruct (fsk_parts r top z z z z [] Hz) as (_ & _ & Q0 & _). rewrite app_nil_r in Q0. rewrite Q0, N.mod_small by lia. split; [lia|]. split; [lia|]. intros; lia.
  - pose proof (sign_exhausted_row mt r Hr sk Hk _ (N.to_nat (junk 0)) m ltac:(lia) Hm) as Hl. cbv zeta in Hl. rewrite Ho in Hl.
    apply (f_equal (fun v => match v with Ok a => so_sk a | _ => [] end)) in Hl. cbv beta iota in Hl. rewrite Hl. cbn [so_sk].
    match goal with |- (_ <= ?x)%N /\ _ => assert (Hx : x = (256 ^ N.of_nat ib - 1)%N) end.
    { unfold sk_index. rewrite skipn_app_len by (now rewrite toByte_length). rewrite firstn_app_len by (now rewrite repeat_length). rewrite <- (repeat_length 255%N ib) at 2. apply os2ip_ff. }
    rewrite Hx. split; [lia|]. split; intros; lia.
Qed.
End Cores.
